(** Model of dolfyn/adv/motion.py: [CalcMotion], [_calc_probe_pos] and [correct_motion].

    Simplifications, for the whole file:
    - floats are real numbers (float32 casts dropped), and no NaN appears in the course of the
      computation: that 'accel' or 'angrt' holds a NaN is a flag of the dataset;
    - the Butterworth filters are a parameter [lowpass order freq fs x]: the series filtered by
      [ss.filtfilt(ss.butter(order, freq/(fs/2)), x)], [None] when scipy raises (frequency out of
      range, series too short);
    - ADV variables have one cell per time ([(3, time)] arrays);
    - warnings are dropped; the deep copy at line 392 is implicit. *)
From Coq Require Import String Reals List Bool ZArith.
From Verif.Model Require Import Linalg Rotate.
Import ListNotations.
Open Scope R_scope.

Inductive merr :=
| MissingVariable    (* KeyError *)
| MissingSamples     (* motion.py:395-398 *)
| AlreadyCorrected   (* motion.py:400-402 *)
| NoImu              (* motion.py:404-405 *)
| BadFrame           (* motion.py:82-85 *)
| BadDutyCycle       (* motion.py:106, or an empty [max] *)
| NoInterval         (* TypeError: no 'duty_cycle_interval' *)
| FilterError        (* scipy *)
| BurstShape         (* ValueError at motion.py:184-186 *)
| UnknownImu         (* motion.py:15 *)
| NoHeadVec          (* AttributeError: no 'inst2head_vec' *)
| SingularBeams      (* LinAlgError *)
| RotateErr (e : err).

(** An ADV dataset with an IMU: what the rotations see, and the attributes used here. *)
Record mds := Mds {
  base : ds;
  has_imu : bool;                 (* hasattr(ds, 'has_imu') *)
  corrected : bool;               (* attrs['motion corrected'] *)
  head_vec : option vec;          (* attrs['inst2head_vec'] *)
  accel_freq : option R;          (* attrs['motion accel_filtfreq Hz'] *)
  vel_freq : option R;            (* attrs['motion vel_filtfreq Hz'] *)
  n_burst : option nat;           (* attrs['duty_cycle_n_burst'] *)
  interval : option Z;            (* attrs['duty_cycle_interval'], s *)
  times : list Z;                 (* datetime64[ns] *)
  fs : R;
  accel_nan : bool;
  angrt_nan : bool }.

(** motion.py:11-15 [_get_body2imu] *)
Definition body2imu (mk : string) : merr + vec :=
  if String.eqb mk "nortek vector" then inr [635/100000; 635/100000; 14986/100000]
  else inl UnknownImu.

(** motion.py:51-71 [_check_filtfreqs]: the two frequencies used *)
Definition filt_freqs (attr_acc attr_vel arg_acc arg_vel : option R) : R * R :=
  let fa := match attr_acc with
            | None => match arg_acc with None => 3/100 | Some a => a end
            | Some da => match arg_acc with None => da | Some a => a end
            end in
  let fv := match arg_vel with
            | Some v => v
            | None => match attr_vel with Some v => v | None => fa / 3 end
            end in
  (fa, fv).

(** ** duty cycle *)

(** [time[n:] - time[:-n]] *)
Fixpoint sub_lists (a b : list Z) : list Z :=
  match a, b with
  | x :: a', y :: b' => (x - y)%Z :: sub_lists a' b'
  | _, _ => []
  end.
(** motion.py:97-98: a timedelta64[ns] divided by the float 1e9 is a timedelta64 again: whole
    seconds, truncated *)
Definition burst_intervals (n : nat) (t : list Z) : list Z :=
  map (fun x => Z.quot x 1000000000) (sub_lists (skipn n t) (firstn (List.length t - n) t)).
Definition maxZ (x : Z) (l : list Z) := fold_left Z.max l x.
Definition minZ (x : Z) (l : list Z) := fold_left Z.min l x.

(** motion.py:87-109 [_check_duty_cycle]; [mean] of a timedelta64 array is a whole number.
    [inr None]: no duty cycle declared. *)
Definition check_duty_cycle (n : option nat) (iv : option Z) (t : list Z) : merr + option nat :=
  match n with
  | None | Some O => inr None
  | Some n =>
    match burst_intervals n t with
    | [] => inl BadDutyCycle
    | x :: l =>
      let rng := (maxZ x l - minZ x l)%Z in
      let mean := Z.quot (fold_right Z.add 0%Z (x :: l)) (Z.of_nat (List.length (x :: l))) in
      if (2 <? rng)%Z then inl BadDutyCycle
      else match iv with
           | None => inl NoInterval
           | Some i => if ((i + 1 <? mean) && (mean <? i - 1))%Z then inl BadDutyCycle
                       else inr (Some n)
           end
    end
  end.

(** motion.py:111-114 [reshape]: [k] bursts of [n] samples *)
Fixpoint take_bursts (k n : nat) (x : list R) : list (list R) :=
  match k with
  | O => []
  | S k' => firstn n x :: take_bursts k' n (skipn n x)
  end.
Definition reshape_bursts (n : nat) (x : list R) : list (list R) :=
  take_bursts (Nat.div (List.length x) n) n x.

(** the series as the list of its bursts: one burst when there is no duty cycle *)
Definition bursts (n : option nat) (x : list R) : list (list R) :=
  match n with Some n => reshape_bursts n x | None => [x] end.

Fixpoint map_opt {A B} (f : A -> option B) (l : list A) : option (list B) :=
  match l with
  | [] => Some []
  | x :: l' => match f x, map_opt f l' with Some y, Some r => Some (y :: r) | _, _ => None end
  end.

Definition mean (x : list R) : R := fold_right Rplus 0 x / INR (List.length x).

(** [scipy.integrate.cumtrapz(x, dx)] with a leading zero (motion.py:162-163) *)
Fixpoint cumtrapz_from (dx acc x0 : R) (x : list R) : list R :=
  acc :: match x with
         | [] => []
         | x1 :: x' => cumtrapz_from dx (acc + dx * (x0 + x1) / 2) x1 x'
         end.
Definition cumtrapz (dx : R) (x : list R) : list R :=
  match x with [] => [0] | x0 :: x' => cumtrapz_from dx 0 x0 x' end.

Fixpoint sub_series (a b : list R) : list R :=
  match a, b with
  | x :: a', y :: b' => (x - y) :: sub_series a' b'
  | _, _ => []
  end.

Section Filters.
Variable lowpass : nat -> R -> R -> list R -> option (list R).

(** motion.py:116-139 [_set_acclow], one burst of one component *)
Definition low_accel (fa fsamp : R) (x : list R) : option (list R) :=
  if Req_EM_T fa 0 then Some (map (fun _ => mean x) x) else lowpass 1%nat fa fsamp x.

(** motion.py:141-196 [calc_velacc], one burst of one component: integral of the high-pass
    acceleration, minus its low-pass *)
Definition integrate (fv fsamp : R) (x low : list R) : option (list R) :=
  let dat := cumtrapz (1 / fsamp) (sub_series x low) in
  if Rlt_dec 0 fv then
    match lowpass 2%nat fv fsamp dat with
    | Some l => Some (sub_series dat l)
    | None => None
    end
  else Some dat.

(** motion.py:116-196: acclow and velacc of one component, bursts put together again; storing
    them in an array of [ntime] samples fails when the bursts do not fill it (184-186) *)
Definition component_motion (n : option nat) (fa fv fsamp : R) (x : list R)
  : merr + (list R * list R) :=
  let bs := bursts n x in
  match map_opt (low_accel fa fsamp) bs with
  | None => inl FilterError
  | Some lows =>
    match map_opt (fun p => integrate fv fsamp (fst p) (snd p)) (combine bs lows) with
    | None => inl FilterError
    | Some vs =>
      if Nat.eqb (List.length (concat vs)) (List.length x)
      then inr (concat lows, concat vs)
      else inl BurstShape
    end
  end.

(** ** vectors *)

(** the vector of every time of a [(3, time)] variable, and back *)
Definition vecs (v : var) : list vec := map (fun c => hd [] c) (cells v).
Definition of_vecs (l : list vec) : var := Var 3 (map (fun x => [x]) l).
Definition series (i : nat) (l : list vec) : list R := map (fun v => nth i v 0) l.
Fixpoint zip3 (a b c : list R) : list vec :=
  match a, b, c with
  | x :: a', y :: b', z :: c' => [x; y; z] :: zip3 a' b' c'
  | _, _, _ => []
  end.
Fixpoint vadd (a b : vec) : vec :=
  match a, b with x :: a', y :: b' => (x + y) :: vadd a' b' | _, _ => [] end.
Fixpoint vsub (a b : vec) : vec :=
  match a, b with x :: a', y :: b' => (x - y) :: vsub a' b' | _, _ => [] end.
Fixpoint zipw {A B C} (f : A -> B -> C) (a : list A) (b : list B) : list C :=
  match a, b with x :: a', y :: b' => f x y :: zipw f a' b' | _, _ => [] end.

(** motion.py:234-240: velocity of the point [r] for the rotation rate [w] *)
Definition velrot1 (r w : vec) : vec :=
  let x i := nth i r 0 in
  let o i := nth i w 0 in
  [x 2%nat * o 1%nat - x 1%nat * o 2%nat;
   x 0%nat * o 2%nat - x 2%nat * o 0%nat;
   x 1%nat * o 0%nat - x 0%nat * o 1%nat].

(** motion.py:198-250 [calc_velrot] of one position; the einsum of line 243 multiplies by the
    transpose of the orientation matrix *)
Definition calc_velrot (mk : string) (om : list mat) (angrt : list vec) (pos : vec) (to_earth : bool)
  : merr + list vec :=
  match body2imu mk with
  | inl e => inl e
  | inr b =>
    let v := map (velrot1 (vsub (firstn 3 pos) b)) angrt in
    inr (if to_earth then zipw (fun O x => mv (tr 3 O) x) om v else v)
  end.

(** motion.py:280-293: the three receivers, rows of the result *)
Definition probe_pos (rot : mat) (v : vec) : list vec :=
  let r := 76/1000 in
  let phi := deg2rad (-(30)) in
  map (fun theta => vadd (mv (tr 3 rot) [r * cos (deg2rad theta); r * sin (deg2rad theta); r * tan phi]) v)
      [0; 120; 240].

(** motion.py:436-457: one time. [probes] holds the velocity of each receiver. The array
    [velrot] is indexed (component, probe, time), and [np.dot(rmat, velrot)] sums over the
    SECOND TO LAST index of its second argument: the probe. The diagonal is that of the
    (beam, component) plane. *)
Definition separate1 (T rot : mat) (probes : list vec) : vec :=
  let head := mm 3 rot probes in
  let beams := mm 3 (inv 3 T) head in
  let diag := map (fun i => nth i (nth i beams []) 0) (seq 0 3) in
  mv (tr 3 rot) (mv T diag).

(** [ds[nm] = v] *)
Definition put (nm : string) (v : var) (l : list (string * var)) : list (string * var) :=
  match lookup nm l with Some _ => update nm v l | None => l ++ [(nm, v)] end.

Definition set_rotate_vars d x := Ds (make_model d) (inst_model d) (coord_sys d) (dir d) (dirIMU d)
  (beam_labels d) (orientation d) (beam2inst d) (orientmat d) (heading d) (inst2head d)
  (inst2head_was_set d) (principal_heading d) (declination d) x (data d).

(** rotate/vector.py:53-122 [_inst2earth] with its arguments [rotate_vars] and [force]; data
    already in the wanted frame make it return nothing, which the caller then fails on *)
Definition inst2earth_of (reverse force : bool) (names : list string) (d : ds) : res :=
  let cs_now := if reverse then "earth"%string else "inst"%string in
  let cs_new := if reverse then "inst"%string else "earth"%string in
  if (negb force && negb (String.eqb (lower (coord_sys d)) cs_now))%bool then Err WrongFrame d
  else
    let ms := map (fun O => let rmat := tr 3 O in mv (if reverse then tr 3 rmat else rmat))
                  (orientmat d) in
    bind (over_vars names
            (fun v => if Nat.eqb (ncomp v) 3 then map_time ms v else inl NotAVector) d)
         (fun d' => set_coords d' cs_new).

Definition has (nm : string) (d : ds) : bool :=
  match lookup nm (data d) with Some _ => true | None => false end.
Definition get (nm : string) (d : ds) : list vec :=
  match lookup nm (data d) with Some v => vecs v | None => [] end.

(** motion.py:73-85 [_set_accel] *)
Definition earth_accel (d : ds) : merr + list vec :=
  if String.eqb (coord_sys d) "inst" then
    inr (zipw (fun O a => mv (tr 3 O) a) (orientmat d) (get "accel" d))
  else if String.eqb (coord_sys d) "earth" then inr (get "accel" d)
  else inl BadFrame.

(** motion.py:434-457: velocity of the head, or from the velocities of the receivers *)
Definition head_velocity (separate : bool) (d : ds) (hv : option vec) : merr + list vec :=
  match hv with
  | None => inl NoHeadVec
  | Some v =>
    if separate then
      match body2imu (make_model d), inst2head d with
      | inl e, _ => inl e
      | inr _, None => inl MissingVariable
      | inr b, Some rot =>
        if singular 3 (beam2inst d) then inl SingularBeams
        else
          let ps := probe_pos rot v in
          inr (map (fun w => separate1 (beam2inst d) rot (map (fun p => velrot1 (vsub p b) w) ps))
                   (get "angrt" d))
      end
    else calc_velrot (make_model d) (orientmat d) (get "angrt" d) v false
  end.

Definition lift (r : res) : merr + ds := match r with Ok d => inr d | Err e _ => inl (RotateErr e) end.
Definition andThen {A B} (x : merr + A) (f : A -> merr + B) : merr + B :=
  match x with inl e => inl e | inr a => f a end.

Definition after (m : mds) (d : ds) (fa : R) : mds :=
  Mds d (has_imu m) true (head_vec m) (Some fa) (vel_freq m) (n_burst m) (interval m) (times m)
      (fs m) (accel_nan m) (angrt_nan m).

(** motion.py:298-511 [correct_motion]; 'rotate_vars' is always in the attributes *)
Definition correct_motion (arg_acc arg_vel : option R) (to_earth separate : bool) (m : mds)
  : merr + mds :=
  let d := base m in
  if negb (has "accel" d) then inl MissingVariable
  else if accel_nan m then inl MissingSamples
  else if negb (has "angrt" d) then inl MissingVariable
  else if angrt_nan m then inl MissingSamples
  else if (has "velrot" d || corrected m)%bool then inl AlreadyCorrected
  else if negb (has_imu m) then inl NoImu
  else
    andThen (if String.eqb (coord_sys d) "inst" then inr d else lift (rotate2 d "inst")) (fun d =>
    match check_inst2head d with
    | inl e => inl (RotateErr e)
    | inr _ =>
      let ff := filt_freqs (accel_freq m) (vel_freq m) arg_acc arg_vel in
      let fa := fst ff in
      let fv := snd ff in
      andThen (earth_accel d) (fun acc =>
      andThen (check_duty_cycle (n_burst m) (interval m) (times m)) (fun n =>
      let one i := component_motion n fa fv (fs m) (series i acc) in
      andThen (one 0%nat) (fun c0 => andThen (one 1%nat) (fun c1 => andThen (one 2%nat) (fun c2 =>
      let acclow := zip3 (fst c0) (fst c1) (fst c2) in
      let velacc := zip3 (snd c0) (snd c1) (snd c2) in
      andThen (head_velocity separate d (head_vec m)) (fun velrot =>
      let d1 := set_data d (put "velrot" (of_vecs velrot)
                  (put "acclow" (of_vecs acclow) (put "velacc" (of_vecs velacc) (data d)))) in
      let d2 := set_rotate_vars d1 (rotate_vars d1 ++ ["velrot"; "velacc"; "acclow"]%string) in
      andThen (lift (if to_earth then
                 inst2earth_of false false
                   (filter (fun nm => negb (existsb (String.eqb nm) ["accel"; "acclow"; "velacc"]%string))
                           (rotate_vars d2))
                   (set_data d2 (put "accel" (of_vecs acc) (data d2)))
               else inst2earth_of true true ["acclow"; "velacc"]%string d2)) (fun d3 =>
      match lookup "vel" (data d3) with
      | None => inl MissingVariable
      | Some vel =>
        let d4 := set_data d3 (put "vel_raw" vel (data d3)) in
        let d5 := set_rotate_vars d4 (rotate_vars d4 ++ ["vel_raw"]%string) in
        let motion := zipw vadd (get "velrot" d5) (get "velacc" d5) in
        inr (after m (set_data d5 (put "vel" (of_vecs (zipw vadd (vecs vel) motion)) (data d5))) fa)
      end)))))))
    end).
End Filters.
