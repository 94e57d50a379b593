(** Model of dolfyn/io/nortek.py: the values in the blocks of a Vector or an AWAC, and the times and the
    orientation of the samples of a Vector. Floats are exact rationals. *)
From Coq Require Import ZArith QArith List Bool.
From Verif.Model Require Import Nortek Gaps.
Import ListNotations.
Open Scope Z_scope.

(** nortek.py:676-687 (format 4B2H3h6B), 766-780 [sci_vec_data], nortek_defs.py:103-150. [scale] is
    vel_scale_mm, 1 or 0.1 (nortek.py:562). [None] is an error of unpack. *)
Record vec_sample := VecSample { v_pressure : Q; v_vel : list Q; v_amp : list Z; v_corr : list Z }.
Definition decode_vec (e : endian) (scale : Q) (bs : bytes) : option vec_sample :=
  match bs with
  | [_; _; pmsb; _; p0; p1; _; _; u0; u1; v0; v1; w0; w1; a0; a1; a2; c0; c1; c2] =>
    let vel := fun b0 b1 => (inject_Z (signed (word e b0 b1)) * (1 # 1000) * scale)%Q in
    Some (VecSample ((inject_Z pmsb * 65536 + inject_Z (word e p0 p1)) / 1000)
           [vel u0 u1; vel v0 v1; vel w0 w1] [a0; a1; a2] [c0; c1; c2])
  | _ => None
  end.

(** nortek.py:830-843 (format 2H3hH2BH of the bytes from 8 on), nortek_defs.py:152-235 *)
Record vec_sys := VecSys { s_date : option date; s_batt : Q; s_c_sound : Q; s_heading : Q; s_pitch : Q; s_roll : Q; s_temp : Q;
  s_error : Z; s_status : Z }.
Definition decode_sys (e : endian) (bs : bytes) : option vec_sys :=
  match bs with
  | _ :: _ :: (_ :: _ :: _ :: _ :: _ :: _ :: [b0; b1; cs0; cs1; h0; h1; p0; p1; r0; r1; t0; t1; er; st; _; _]) as rest =>
    Some (VecSys (rd_time rest)
      (inject_Z (word e b0 b1) * (1 # 10)) (inject_Z (word e cs0 cs1) * (1 # 10))
      (inject_Z (signed (word e h0 h1)) * (1 # 10)) (inject_Z (signed (word e p0 p1)) * (1 # 10)) (inject_Z (signed (word e r0 r1)) * (1 # 10))
      (inject_Z (word e t0 t1) * (1 # 100)) er st)%Q
  | _ => None
  end.

(** nortek.py:1054-1069 (format 7HBB2H of the bytes 8 to 28), nortek_defs.py:237-330: all words unsigned *)
Record awac_head := AwacHead { a_date : option date; a_error : Z; a_batt : Q; a_c_sound : Q; a_heading : Q; a_pitch : Q; a_roll : Q;
  a_pressure : Q; a_status : Z; a_temp : Q }.
Definition decode_awac (e : endian) (bs : bytes) : option awac_head :=
  match bs with
  | _ :: _ :: (_ :: _ :: _ :: _ :: _ :: _ :: e0 :: e1 :: _ :: _ :: b0 :: b1 :: c0 :: c1 :: h0 :: h1 :: p0 :: p1 :: r0 :: r1 ::
      pmsb :: st :: l0 :: l1 :: t0 :: t1 :: _) as rest =>
    Some (AwacHead (rd_time rest) (word e e0 e1)
      (inject_Z (word e b0 b1) * (1 # 10)) (inject_Z (word e c0 c1) * (1 # 10)) (inject_Z (word e h0 h1) * (1 # 10))
      (inject_Z (word e p0 p1) * (1 # 10)) (inject_Z (word e r0 r1) * (1 # 10))
      (inject_Z (65536 * pmsb + word e l0 l1) * (1 # 1000)) st (inject_Z (word e t0 t1) * (1 # 100)))%Q
  | _ => None
  end.
(** nortek.py:1070-1075: the velocity counts of beam [k]: [n] beams of [nbins] cells, format h, from byte
    116 on; 'vel' has factor 0.001 *)
Definition awac_vel (e : endian) (n nbins : nat) (bs : bytes) (k : nat) : list Q :=
  map (fun w => (inject_Z (signed w) * (1 # 1000))%Q)
      (firstn nbins (skipn (k * nbins) (words e (firstn (2 * (n * nbins)) (skipn 116 bs))))).
(** the amplitudes: [n * nbins] bytes after the velocities *)
Definition awac_amp (n nbins : nat) (bs : bytes) (k : nat) : list Z :=
  firstn nbins (skipn (k * nbins) (firstn (n * nbins) (skipn (116 + 2 * (n * nbins)) bs))).

(** ** Times of the samples of a Vector *)
Open Scope Q_scope.
Definition qsum (l : list Q) : Q := fold_right Qplus 0 l.
Definition qmean (l : list Q) : Q := qsum l / inject_Z (Z.of_nat (length l)).
Definition qn (k : nat) : Q := inject_Z (Z.of_nat k).
(** numpy.polyfit of degree one, evaluated *)
Definition line_fit (xs ys : list Q) (x : Q) : Q :=
  let mx := qmean xs in let my := qmean ys in
  let slope := qsum (map (fun p => (fst p - mx) * (snd p - my)) (combine xs ys)) / qsum (map (fun x => (x - mx) * (x - mx)) xs) in
  my + slope * (x - mx).
(** nortek.py:867-879: the times of one burst; [t] has a time where system data were read *)
Definition burst_times (fs : Q) (t : series) : series :=
  let inds := tl (good_idx t) in
  let at_ := fun k => val_or0 (nthq t k) in
  match inds with
  | [] => match nthq t 0 with
          | Some t0 => map (fun k => Some (t0 + qn k / (fs * 24 * 3600))) (seq 0 (length t))
          | None => map (fun _ => None) t
          end
  | [i] => map (fun k => Some ((qn k - qn i) / (fs * 3600 * 24) + at_ i)) (seq 0 (length t))
  | _ => map (fun k => Some (line_fit (map qn inds) (map at_ inds) (qn k))) (seq 0 (length t))
  end.
(** nortek.py:857-866: burst by burst; no bursts when n_burst is 0 *)
Fixpoint bursts (fuel : nat) (nburst : nat) (f : series -> series) (t : series) : series :=
  match fuel, t with
  | _, [] => []
  | O, _ => t
  | S fuel, _ => f (firstn nburst t) ++ bursts fuel nburst f (skipn nburst t)
  end.
Definition sample_times (fs : Q) (nburst : nat) (t : series) : series :=
  if Nat.eqb nburst 0 then bursts 1 (length t) (burst_times fs) t
  else bursts (length t / nburst + 1) nburst (burst_times fs) t.

(** nortek.py:881-889: orientation_down of one burst, from the status bytes where system data were read *)
Definition orientation_down (status : list (option Z)) : list bool :=
  let tmpd := map (option_map (fun s => inject_Z (Z.land s 1))) status in
  let filled := map val_or0 (fillgaps None true tmpd) in
  let v := fun k => nth k filled 0 in
  let n := length filled in
  (* slope k is v (k+1) - v k *)
  let up := fun k => (1 <=? k)%nat && negb (Qle_bool 0 (v k - v (k - 1)%nat)) in
  let v1 := fun k => if up k then 1 else v k in
  let v2 := fun k => if (S k <? n)%nat && negb (Qle_bool (v (S k) - v k) 0) then 0 else v1 k in
  map (fun k => negb (Qeq_bool (v2 k) 0)) (seq 0 n).
