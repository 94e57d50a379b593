(** What the dataset of a Vector file should hold: the samples of the file, with the times of the clock of the
    instrument. *)
From Coq Require Import String.
From Coq Require Import ZArith QArith List Bool.
From Verif.Model Require Import Nortek NortekFile NortekData HandleNan ReadVector.
From Verif.Model Require RdiBlocks.
From Verif.Spec Require Import Nortek NortekGuess Time Gaps.
Import ListNotations.
Open Scope Z_scope.

(** the blocks with system data show the clock [fst ab + snd ab * k], in seconds since 1970, where [k] is the number
    of samples before the block; it does not run backwards *)
Definition clock_of (bs : list blk) (ab : Q * Q) : Prop :=
  (0 < fst ab)%Q /\ (0 <= snd ab)%Q /\
  forall pre b post, bs = pre ++ b :: post -> is_sys b = true ->
    exists d, rd_time (skipn 2 (body b)) = Some d /\
      (inject_Z (RdiBlocks.epoch d) == fst ab + snd ab * inject_Z (Z.of_nat (length (samples pre))))%Q.
(** there are system data at three samples or more *)
Definition three_times (bs : list blk) : Prop :=
  exists l0 y0 l1 y1 l2 y2 l3, bs = l0 ++ y0 :: l1 ++ y1 :: l2 ++ y2 :: l3 /\
    is_sys y0 = true /\ is_sys y1 = true /\ is_sys y2 = true /\ samples l1 <> [] /\ samples l2 <> [].

(** there are no IMU data; or every sample is followed by IMU data, all of the same kind, and all of them numbers *)
Definition no_imu (bs : list blk) : Prop := Forall (fun b => is_imu b = false) bs.
Definition imu_every (e : endian) (bs : list blk) : Prop :=
  (exists id, forall b, In b bs -> is_imu b = true ->
     nth 3 (body b) 0 = id /\ Forall (fun x => x <> None) (floats e (skipn 4 (body b)))) /\
  forall pre v post, bs = pre ++ v :: post -> velocity v = true ->
    exists mid i post', post = mid ++ i :: post' /\ samples mid = [] /\ is_imu i = true.

(** sample [i] of component [k] of a variable *)
Definition at_sample (d : dataset) (name : string) (k i : nat) : option (option Q) :=
  match find (fun v => String.eqb (vname v) name) (d_vars d) with
  | Some v => nth_error (nth k (lines v) []) i
  | None => None
  end.
(** sample [i] is what the block says *)
Definition sample_is (e : endian) (scale : Q) (d : dataset) (i : nat) (byts : bytes) : Prop :=
  exists x, decode_vec e scale byts = Some x /\
    (forall k, (k < 3)%nat -> at_sample d "vel" k i = Some (Some (nth k (v_vel x) 0%Q)) /\
       at_sample d "amp" k i = Some (Some (inject_Z (nth k (v_amp x) 0))) /\
       at_sample d "corr" k i = Some (Some (inject_Z (nth k (v_corr x) 0)))) /\
    at_sample d "pressure" 0 i = Some (Some (v_pressure x)).
(** a sample that nobody recorded: no velocity, and zeros *)
Definition sample_made_up (d : dataset) (i : nat) : Prop :=
  (forall k, (k < 3)%nat -> at_sample d "vel" k i = Some None /\ at_sample d "amp" k i = Some (Some 0%Q) /\
     at_sample d "corr" k i = Some (Some 0%Q)) /\ at_sample d "pressure" 0 i = Some (Some 0%Q).
Definition time_is (d : dataset) (i : nat) (x : Q) : Prop :=
  exists ns, nth_error (d_time d) i = Some ns /\ same_instant ns x.
Definition clock_at (ab : Q * Q) (k : nat) : Q := (fst ab + snd ab * inject_Z (Z.of_nat k))%Q.

(** the dataset has the samples, no others, and their times are those of the clock *)
Definition holds_exactly (e : endian) (scale : Q) (smp : list bytes) (clock : nat -> Q) (d : dataset) : Prop :=
  length (d_time d) = length smp /\
  forall i byts, nth_error smp i = Some byts -> sample_is e scale d i byts /\ time_is d i (clock i).

(** a burst: its number of samples, no system data after the last of them *)
Definition whole_burst (n : nat) (bl : list blk) : Prop :=
  length (samples bl) = n /\ forall pre b post, bl = pre ++ b :: post -> is_sys b = true -> samples post <> [].
(** the clock of burst after burst *)
Definition clock_in_bursts (n : nat) (clocks : list (Q * Q)) (k : nat) : Q := clock_at (nth (k / n) clocks (0, 0)%Q) (k mod n).

Definition three_by_three (m : list (list Q)) : Prop := length m = 3%nat /\ Forall (fun r => length r = 3%nat) m.

(** ** attitude *)
(** the system data at sample [k]: those of the last such block after [k] samples *)
Definition sys_at (e : endian) (bs : list blk) (k : nat) (x : vec_sys) : Prop :=
  exists pre b post, bs = pre ++ b :: post /\ is_sys b = true /\ length (samples pre) = k /\ none_before_velocity is_sys post = true /\
    decode_sys e (body b) = Some x.
Definition no_sys_at (bs : list blk) (k : nat) : Prop :=
  forall pre b post, bs = pre ++ b :: post -> is_sys b = true -> length (samples pre) <> k.
Definition attitudes : list (string * (vec_sys -> Q)) :=
  [("batt", s_batt); ("c_sound", s_c_sound); ("heading", s_heading); ("pitch", s_pitch); ("roll", s_roll); ("temp", s_temp)]%string.
(** what was recorded is kept, is joined by straight lines in time, and is not continued before the first or after the
    last system data *)
Definition attitude_follows (e : endian) (bs : list blk) (clock : nat -> Q) (d : dataset) : Prop :=
  forall nm f, In (nm, f) attitudes ->
    (forall k x, sys_at e bs k x -> (k < length (d_time d))%nat -> at_sample d nm 0 k = Some (Some (f x))) /\
    (forall i j k x y, sys_at e bs i x -> sys_at e bs j y -> (i < k < j)%nat -> (forall m, (i < m < j)%nat -> no_sys_at bs m) ->
       (k < length (d_time d))%nat -> ~ (clock i == clock j)%Q ->
       exists v, at_sample d nm 0 k = Some (Some v) /\ on_line_t (clock i) (clock j) (clock k) (f x) (f y) v) /\
    (forall k, (k < length (d_time d))%nat -> (forall m, (m <= k)%nat -> no_sys_at bs m) \/ (forall m, (k <= m)%nat -> no_sys_at bs m) ->
       at_sample d nm 0 k = Some None).

(** ** IMU *)
(** the IMU data of sample [k]: those of the last such block between it and the next sample *)
Definition imu_at (bs : list blk) (k : nat) (id : Z) (vals : bytes) : Prop :=
  exists pre b post, bs = pre ++ b :: post /\ is_imu b = true /\ length (samples pre) = S k /\ none_before_velocity is_imu post = true /\
    nth 3 (body b) 0 = id /\ skipn 4 (body b) = vals.
(** where in the message the three numbers of a vector, or the nine of the matrix, begin *)
Definition imu_place (id : Z) (nm : string) : option nat :=
  option_map snd (find (fun p => (fst (fst p) =? id) && String.eqb (snd (fst p)) nm)
    [((195, "angrt"), 0%nat); ((195, "accel"), 3%nat); ((195, "orientmat"), 6%nat);
     ((204, "accel"), 0%nat); ((204, "angrt"), 3%nat); ((204, "mag"), 6%nat); ((204, "orientmat"), 9%nat);
     ((211, "angrt"), 0%nat); ((211, "accel"), 3%nat); ((211, "mag"), 6%nat)]%string).
(** accelerations in units of gravity; messages 195 and 211 have what they add up to in one sample *)
Definition imu_factor (fs : Q) (id : Z) (nm : string) : Q :=
  ((if String.eqb nm "accel" then 980665 # 100000 else 1) *
   (if ((id =? 195) || (id =? 211)) && (String.eqb nm "accel" || String.eqb nm "angrt") then fs else 1))%Q.
(** x, y and z of the instrument are -z, y and x of the IMU; the matrix has rows likewise, and its columns are turned
    from north, east and down to east, north and up *)
Definition axis (k : nat) : nat * Q := match k with O => (2%nat, -1)%Q | 1%nat => (1%nat, 1)%Q | _ => (0%nat, 1)%Q end.
Definition world (k : nat) : nat * Q := match k with O => (1%nat, 1)%Q | 1%nat => (0%nat, 1)%Q | _ => (2%nat, -1)%Q end.
Definition imu_number (e : endian) (vals : bytes) (p : nat) (x : Q) : Prop := nth_error (floats e vals) p = Some (Some x).
Definition imu_component (e : endian) (fs : Q) (id : Z) (vals : bytes) (nm : string) (k : nat) (v : Q) : Prop :=
  exists (p : nat) (x : Q), imu_place id nm = Some p /\
    (if String.eqb nm "orientmat"
     then (k < 9)%nat /\ imu_number e vals (p + 3 * fst (axis (k / 3)) + fst (world (k mod 3)))%nat x /\
          (v == snd (axis (k / 3)) * snd (world (k mod 3)) * x)%Q
     else (k < 3)%nat /\ imu_number e vals (p + fst (axis k))%nat x /\ (v == snd (axis k) * imu_factor fs id nm * x)%Q).
(** the IMU variables of the dataset are those the IMU sent with each sample *)
Definition imu_follows (e : endian) (fs : Q) (bs : list blk) (d : dataset) : Prop :=
  forall i id vals nm k v, imu_at bs i id vals -> imu_component e fs id vals nm k v -> (i < length (d_time d))%nat ->
    exists w, at_sample d nm k i = Some (Some w) /\ (w == v)%Q.

(** a file with these blocks, and what is known of the header *)
Definition vector_file (r : reader) (g : vec_cfg) (bs : list blk) (tail : bytes) : Prop :=
  rinst r = Vector /\ cut_off tail /\ Forall (vector_block (rendian r)) bs /\ Forall (verified r) bs /\ imu_after_velocity bs /\
  three_by_three (g_beam2inst g).
(** the blocks say their size, there are system data before the last block, and they come as often as the sampling rate
    has it; more than fifty of them are as far apart as the first ones *)
Definition regular (e : endian) (fs : nat) (header : bytes) (bs : list blk) (tail : bytes) : Prop :=
  (22 <= length header)%nat /\ Forall (sized e) bs /\ (exists pre b post, bs = pre ++ b :: post /\ is_sys b = true /\ post <> []) /\
  evenly 17 bs (file_of header bs tail) /\ Forall (fun k => (k <= fs)%nat) (seconds bs) /\ (hd O (seconds bs) < fs)%nat.
