(** Model of the clock conversions of dolfyn/time.py in double precision; Model/Time.v has them without rounding.
    A Python float is the rational number it stands for; instants are integers. NaN, infinities and subnormal numbers
    are not modelled. *)
From Coq Require Import ZArith QArith Qround.
From Verif.Model Require Import Time BinSpec.
Open Scope Z_scope.

(** the binary64 number nearest to a rational number, halves to even *)
Definition f64 (x : Q) : Q :=
  match (x ?= 0)%Q with Eq => 0 | Gt => binary64 x | Lt => - binary64 (- x) end%Q.
(** numpy [x % 1]: the remainder of fmod, which is exact, plus one if it is negative *)
Definition fmod1 (x : Q) : Q :=
  let r := (x - inject_Z (qtrunc x))%Q in if Qle_bool 0 r then r else f64 (r + 1).

(** time.py:13-31 [epoch2dt64], for one element *)
Definition epoch2dt64_64 (ep : Q) : Z :=
  qtrunc ep * ns_per_s + qtrunc (f64 (fmod1 ep * inject_Z ns_per_s)).
(** time.py:34-49 [dt642epoch], for one element: the integer becomes a float, then the division *)
Definition dt642epoch_64 (ns : Z) : Q := f64 (f64 (inject_Z ns) / inject_Z ns_per_s).
(** time.py:166-183 [date2epoch]: [timestamp()] of a datetime with a timezone is the quotient of two integers,
    rounded once *)
Definition date2epoch_64 (t : Z) : Q := f64 (inject_Z t / inject_Z us_per_s).
(** time.py:86-137 [epoch2date] without offset: [utcfromtimestamp] takes the whole and the fractional part, which is
    exact, multiplies the latter by 1e6 and rounds to the nearest integer, halves to even *)
Definition epoch2date_64 (ep : Q) : Z :=
  qtrunc ep * us_per_s + qround_half_even (f64 ((ep - inject_Z (qtrunc ep)) * inject_Z us_per_s)).
(** time.py:68-83 [dt642date] *)
Definition dt642date_64 (ns : Z) : Z := epoch2date_64 (dt642epoch_64 ns).

(** time.py:186-208 [date2matlab], for one element; cf. [Time.date2matlab] *)
Definition date2matlab_64 (t : Z) : Q :=
  let mdn_ord := (t + 366 * us_per_day) / us_per_day in
  let secs := (t mod us_per_day) / us_per_s in
  let micro := t mod us_per_s in
  f64 (f64 (inject_Z mdn_ord + f64 (inject_Z secs / inject_Z 86400)) + f64 (inject_Z micro / inject_Z us_per_day)).
(** time.py:211-236 [matlab2date], for one element; [timedelta(days=x)] for 0 <= x < 1 is the nearest microsecond to the
    double x * 86400e6. [microsecond / 100] is compared with halves only, which are exact; it is not rounded here. *)
Definition matlab2date_64 (dn : Q) : Z :=
  let day := qtrunc dn * us_per_day in
  let dayfrac := qround_half_even (f64 (fmod1 dn * inject_Z us_per_day)) - 366 * us_per_day in
  let t := day + dayfrac in
  let micro := t mod us_per_s in
  let us := qround_half_even (inject_Z micro / inject_Z 100)%Q * 100 in
  t + (us - micro).
