(** The Goring and Nikora despiking [GN2002], adv/clean.py:230-344.
    A sample is [option R]; [None] is NaN. Floats are idealised as real numbers. *)
From Coq Require Import Reals List Bool Arith ZArith.
From Verif.Model Require Import Angles Group Stats.
Import ListNotations.
Open Scope R_scope.

(** a quotient of numpy: finite, +inf or NaN *)
Inductive xnum := Fin (r : R) | Inf | NaN.
(** [t / d] for a square [t]; a zero denominator is +0 *)
Definition xdiv (t : R) (d : option R) : xnum :=
  match d with
  | Some d => if Req_EM_T d 0 then (if Req_EM_T t 0 then NaN else Inf) else Fin (t / d)
  | None => NaN
  end.
Definition xadd (a b : xnum) : xnum :=
  match a, b with
  | NaN, _ | _, NaN => NaN
  | Inf, _ | _, Inf => Inf
  | Fin x, Fin y => Fin (x + y)
  end.
(** [x ** -1] *)
Definition xinv (a : xnum) : xnum :=
  match a with
  | Fin x => if Req_EM_T x 0 then Inf else Fin (/ x)
  | Inf => Fin 0
  | NaN => NaN
  end.
Definition is_nan (a : xnum) : bool := match a with NaN => true | _ => false end.
(** [p > pe]: false when one of them is NaN *)
Definition above (p : option R) (pe : xnum) : bool :=
  match p, pe with Some p, Fin q => if Rlt_dec q p then true else false | _, _ => false end.

Definition oadd (a b : option R) : option R :=
  match a, b with Some x, Some y => Some (x + y) | _, _ => None end.
Definition osq (a : option R) : option R := omul a a.
(** [np.sum], [np.mean] and [np.std] of one column: NaN when one sample is *)
Definition osum (l : list (option R)) : option R := fold_right oadd (Some 0) l.
Definition omean (l : list (option R)) : option R :=
  match osum l with Some s => Some (s / INR (length l)) | None => None end.
Definition ostd (l : list (option R)) : option R := osqrt (omean (map (fun v => osq (osub v (omean l))) l)).
Definition oatan2 (y x : option R) : option R :=
  match y, x with Some y, Some x => Some (atan2 y x) | _, _ => None end.

(** adv/clean.py:247-252: half the difference of the two neighbours, zero for the [m] samples at either end *)
Definition centred (m : nat) (l : list (option R)) : list (option R) :=
  map (fun i => if (m <=? i)%nat && (i + m <? length l)%nat
                then omul (osub (nth (i + 1) l None) (nth (i - 1) l None)) (Some (/ 2)) else Some 0)
      (seq 0 (length l)).

(** adv/clean.py:230-237 [_calcab]; [None]: [np.linalg.solve] raises LinAlgError for a singular matrix
    (not for a NaN, which it hands on) *)
Definition calcab (al su sd : option R) : option (option R * option R) :=
  match al, su, sd with
  | Some al, Some su, Some sd =>
      let c := cos al * cos al in let s := sin al * sin al in
      if Req_EM_T (c * c - s * s) 0 then None
      else Some (Some ((su * su * c - sd * sd * s) / (c * c - s * s)),
                 Some ((sd * sd * c - su * su * s) / (c * c - s * s)))
  | _, _, _ => Some (None, None)
  end.

(** adv/clean.py:264-270, one sample; [w] is [(Lu * std_du) ** 2] *)
Definition limit (al a b w : option R) (x y z : option R) : xnum :=
  match al, x, y, z with
  | Some al, Some x, Some y, Some z =>
      let theta := atan2 y x in
      let phi := atan2 (sqrt (y * y + x * x)) z in
      let t1 := sin phi * cos theta * cos al + cos phi * sin al in
      let t2 := sin phi * cos theta * sin al - cos phi * cos al in
      let t3 := sin phi * sin theta in
      xinv (xadd (xadd (xdiv (t1 * t1) a) (xdiv (t2 * t2) b)) (xdiv (t3 * t3) w))
  | _, _, _, _ => NaN
  end.

(** adv/clean.py:240-272 [_phaseSpaceThresh], one column; [None]: it raises *)
Definition phase_space_thresh (u : list (option R)) : option (list bool) :=
  let n := length u in
  let lu := sqrt (2 * ln (INR n)) in
  let x := map (fun v => osub v (omean u)) u in
  let y := centred 1 x in
  let z := centred 2 y in
  let at_ (l : list (option R)) i := nth i l None in
  let al := oatan2 (osum (map2 omul x z)) (osum (map osq x)) in
  match calcab al (omul (Some lu) (ostd x)) (omul (Some lu) (ostd z)) with
  | None => None
  | Some (a, b) =>
      let w := osq (omul (Some lu) (ostd y)) in
      let p i := oadd (oadd (osq (at_ x i)) (osq (at_ y i))) (osq (at_ z i)) in
      let pe i := limit al a b w (at_ x i) (at_ y i) (at_ z i) in
      (* adv/clean.py:271 *)
      let pe i := if is_nan (pe 0%nat) then Fin 0 else pe i in
      Some (map (fun i => above (p i) (pe i)) (seq 0 n))
  end.

(** the columns of [np.reshape(u[:nbins*npt], (npt, nbins), order='F')], adv/clean.py:335-336 *)
Definition blocks (u : list (option R)) (npt : nat) : list (list (option R)) :=
  map (fun j => firstn npt (skipn (j * npt) u)) (seq 0 (length u / npt)).
Fixpoint each {A B} (f : A -> option B) (l : list A) : option (list B) :=
  match l with
  | [] => Some []
  | a :: l' => match f a, each f l' with Some b, Some bs => Some (b :: bs) | _, _ => None end
  end.
(** adv/clean.py:335-337, one turn of the loop *)
Definition gn_turn (u : list (option R)) (npt : nat) (mask : list bool) : option (list bool) :=
  let n := length u in
  match each phase_space_thresh (blocks u npt), phase_space_thresh (skipn (n - npt) u) with
  | Some bs, Some t =>
      let mask := concat bs ++ skipn (n / npt * npt) mask in
      Some (firstn (n - npt) mask ++ t)
  | _, _ => None
  end.

Inductive gn_err := LinAlgError | IndexError | LoopLimit | RecursionError.
Definition count (mask : list bool) : nat := length (filter (fun b => b) mask).
(** adv/clean.py:334-344; [c] turns done, [last] is [mask_last.sum()] with [None] for inf, [fuel] as
    much as the loop limit allows *)
Fixpoint gn_loop (fuel c : nat) (u : list (option R)) (npt : nat) (mask : list bool) (last : option nat) : gn_err + list bool :=
  if negb (existsb (fun b => b) mask) then inr mask
  else match fuel with
  | O => inl LoopLimit
  | S fuel =>
      match gn_turn u npt mask with
      | None => inl LinAlgError
      | Some mask =>
          if (100 <=? S c)%nat then inl LoopLimit
          else if match last with Some k => (k <=? count mask)%nat | None => false end then inr mask
          else gn_loop fuel (S c) u npt mask (Some (count mask))
      end
  end.

(** [u[s:e]] *)
Definition slice {A} (s e : nat) (l : list A) : list A := firstn (e - s) (skipn s l).
(** [mask[s:e] = m] for [m] as long as the slice *)
Definition assign (s e : nat) (m mask : list bool) : list bool := firstn s mask ++ m ++ skipn e mask.
(** adv/clean.py:320-326: the good regions between the bad segments *)
Fixpoint regions (sp ep : nat) (segs : list (nat * nat)) : list (nat * nat) :=
  match segs with
  | [] => [(sp, ep)]
  | (a, b) :: segs' => (sp, a) :: regions b ep segs'
  end.
Definition isnan (x : option R) : bool := match x with None => true | Some _ => false end.

(** adv/clean.py:302-344 [GN2002] of one line of data, [npt > 0]; [depth] bounds the recursion *)
Fixpoint gn2002 (depth : nat) (u : list (option R)) (npt : nat) : gn_err + list bool :=
  match depth with
  | O => inl RecursionError
  | S depth =>
      let n := length u in
      let segs := group (map isnan u) (Z.of_nat (npt / 10)) in
      let mask := map (fun _ => false) u in
      if (2 <? length segs)%nat then
        let sp := if (fst (hd (0, 0)%nat segs) =? 0)%nat then snd (hd (0, 0)%nat segs) else 0%nat in
        let segs := if (fst (hd (0, 0)%nat segs) =? 0)%nat then tl segs else segs in
        let ep := if (snd (List.last segs (0, 0)%nat) =? n)%nat then fst (List.last segs (0, 0)%nat) else n in
        let segs := if (snd (List.last segs (0, 0)%nat) =? n)%nat then removelast segs else segs in
        fold_left (fun acc r => match acc with
                     | inl e => inl e
                     | inr mask => match gn2002 depth (slice (fst r) (snd r) u) npt with
                                   | inl e => inl e
                                   | inr m => inr (assign (fst r) (snd r) m mask)
                                   end
                     end) (regions sp ep segs) (inr mask)
      else match u with
      | [] => inl IndexError                                    (* adv/clean.py:333 *)
      | _ :: _ => gn_loop 100 0 u npt (true :: tl mask) None
      end
  end.
(** adv/clean.py:296-300: more dimensions, each line along the last one; any depth above 1 does, see
    [C125_finishes] *)
Definition gn2002_lines (rows : list (list (option R))) (npt : nat) : list (gn_err + list bool) :=
  map (fun u => gn2002 2 u npt) rows.
