(** What the clock-conversion properties mean. Independent of Model/Time. *)
From Coq Require Import ZArith QArith Qround.

(** The integer nanosecond count [ns] is the instant [x] seconds, rounded down. *)
Definition same_instant (ns : Z) (x : Q) : Prop :=
  (inject_Z ns <= x * inject_Z 1000000000)%Q /\
  (x * inject_Z 1000000000 < inject_Z ns + 1)%Q.

Definition whole (x : Q) : Prop := exists z : Z, (x == inject_Z z)%Q.

(** [r] is a multiple of 100 nearest to [t]; on a tie, the one whose quotient by 100 is even. *)
Definition nearest_hundred (t r : Z) : Prop :=
  exists q, r = (100 * q)%Z /\ (2 * Z.abs (t - r) <= 100)%Z /\
            ((2 * Z.abs (t - r))%Z = 100%Z -> Z.even q = true).

(** [r] is an integer nearest to [x]; ties to even. *)
Definition nearest_int (x : Q) (r : Z) : Prop :=
  (x - (1#2) <= inject_Z r)%Q /\ (inject_Z r <= x + (1#2))%Q /\
  ((x == inject_Z r + (1#2))%Q \/ (x == inject_Z r - (1#2))%Q -> Z.even r = true).
