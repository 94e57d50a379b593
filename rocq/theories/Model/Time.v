(** Model of the clock conversions of dolfyn/time.py.
    Exact rationals stand for Python floats; instants are integers. *)
From Coq Require Import ZArith QArith Qround Lia.
Open Scope Z_scope.

(** Python [int(x)] / numpy [astype('int')] on a float: truncation toward zero. *)
Definition qtrunc (x : Q) : Z := Z.quot (Qnum x) (Zpos (Qden x)).

(** Python [x % 1] on a float: floor-based remainder, in [0,1). *)
Definition qmod1 (x : Q) : Q := (x - inject_Z (Qfloor x))%Q.

(** Python [round(x)], also used by [timedelta(days=...)]: nearest integer, ties to even. *)
Definition qround_half_even (x : Q) : Z :=
  let f := Qfloor x in
  let r := (x - inject_Z f)%Q in
  match (r ?= 1 # 2)%Q with
  | Lt => f
  | Gt => f + 1
  | Eq => if Z.even f then f else f + 1
  end.

(** dolfyn/time.py:6-10 [_fullyear]. *)
Definition fullyear (year : Z) : Z :=
  if year >? 100 then year
  else year + 1900 + 100 * (if year <? 90 then 1 else 0).

Definition ns_per_s : Z := 1000000000.

(** dolfyn/time.py:13-31 [epoch2dt64], for one element.
    Line 29: [astype('int')] seconds; line 30: [(ep_time % 1) * 1e9] truncated to ns.
    The result is the number of nanoseconds since 1970 held by the datetime64. *)
Definition epoch2dt64 (ep : Q) : Z :=
  qtrunc ep * ns_per_s + qtrunc (qmod1 ep * inject_Z ns_per_s)%Q.

(** dolfyn/time.py:34-49 [dt642epoch], for one element. *)
Definition dt642epoch (ns : Z) : Q := (inject_Z ns / inject_Z ns_per_s)%Q.

Definition us_per_s : Z := 1000000.
Definition us_per_day : Z := 86400 * us_per_s.

(** dolfyn/time.py:186-208 [date2matlab], for one element.
    A datetime is the number [t] of microseconds since midnight of proleptic
    ordinal day 0; then [toordinal] is [t / us_per_day].
    Line 202: add 366 days; 203-204: whole seconds of the day / 86400;
    205: microsecond field / 86400e6; 206: sum. *)
Definition date2matlab (t : Z) : Q :=
  let mdn_ord := (t + 366 * us_per_day) / us_per_day in
  let secs := (t mod us_per_day) / us_per_s in
  let micro := t mod us_per_s in
  (inject_Z mdn_ord + inject_Z secs / inject_Z 86400
     + inject_Z micro / inject_Z us_per_day)%Q.

(** dolfyn/time.py:211-236 [matlab2date], for one element.
    227: [fromordinal(int(dn))]; 228: [timedelta(days=dn % 1)], which rounds to a
    microsecond, minus 366 days; 232-234: round the microsecond field to a
    multiple of 100 and add the difference. *)
Definition matlab2date (dn : Q) : Z :=
  let day := qtrunc dn * us_per_day in
  let dayfrac := qround_half_even (qmod1 dn * inject_Z us_per_day)%Q - 366 * us_per_day in
  let t := day + dayfrac in
  let micro := t mod us_per_s in
  let us := qround_half_even (inject_Z micro / inject_Z 100)%Q * 100 in
  t + (us - micro).

(** dolfyn/time.py:86-137 [epoch2date] for one element: [utcfromtimestamp] rounds to a
    microsecond (ties to even); [timedelta(hours=offset_hr)] is added when non-zero.
    Result: microseconds since 1970 of the naive datetime. *)
Definition epoch2date (ep : Q) (offset_hr : Z) : Z :=
  let t := qround_half_even (ep * inject_Z us_per_s)%Q in
  if offset_hr =? 0 then t else t + offset_hr * 3600 * us_per_s.

(** dolfyn/time.py:166-183 [date2epoch] for one element: the naive datetime is read as UTC. *)
Definition date2epoch (t : Z) : Q := (inject_Z t / inject_Z us_per_s)%Q.
