(** Model of dolfyn/time.py:140-163: date2str. Characters are their codes. *)
From Coq Require Import ZArith List Bool.
Import ListNotations.
Open Scope Z_scope.

(** a datetime.datetime without time zone *)
Record moment := Moment { year : Z; month : Z; day : Z; hour : Z; minute : Z; second : Z; micro : Z }.
(** decimal notation with [n] digits *)
Fixpoint digits (n : nat) (x : Z) : list Z :=
  match n with O => [] | S n => (48 + x / 10 ^ Z.of_nat n) :: digits n (x mod 10 ^ Z.of_nat n) end.
(** %Y of the C library on Linux, which strftime calls: without leading zeros *)
Definition year_text (y : Z) : list Z := digits (if y <? 10 then 1%nat else if y <? 100 then 2%nat else if y <? 1000 then 3%nat else 4%nat) y.
(** the directives of datetime.strftime for dates and times of day in numbers, of which dolfyn/time.py:158 uses seven; [None]:
    a directive that is not modelled *)
Definition directive (c : Z) (t : moment) : option (list Z) :=
  if c =? 89 then Some (year_text (year t)) (* Y *)
  else if c =? 109 then Some (digits 2 (month t)) (* m *)
  else if c =? 100 then Some (digits 2 (day t)) (* d *)
  else if c =? 72 then Some (digits 2 (hour t)) (* H *)
  else if c =? 77 then Some (digits 2 (minute t)) (* M *)
  else if c =? 83 then Some (digits 2 (second t)) (* S *)
  else if c =? 102 then Some (digits 6 (micro t)) (* f *)
  else if c =? 37 then Some [37] (* % *)
  else None.
(** datetime.strftime, called in dolfyn/time.py:163 *)
Fixpoint strftime (fmt : list Z) (t : moment) : option (list Z) :=
  match fmt with
  | [] => Some []
  | 37 :: c :: fmt => match directive c t, strftime fmt t with Some a, Some b => Some (a ++ b) | _, _ => None end
  | [37] => None
  | c :: fmt => option_map (cons c) (strftime fmt t)
  end.
(** dolfyn/time.py:157-158: '%Y-%m-%d %H:%M:%S.%f' *)
Definition default_format : list Z := [37; 89; 45; 37; 109; 45; 37; 100; 32; 37; 72; 58; 37; 77; 58; 37; 83; 46; 37; 102].
Inductive dates := One (t : moment) | Many (l : list moment).
(** dolfyn/time.py:157-163; [None] as in [strftime] *)
Definition date2str (dt : dates) (format_str : option (list Z)) : option (list (list Z)) :=
  let fmt := match format_str with None => default_format | Some f => f end in
  let l := match dt with One t => [t] | Many l => l end in
  fold_right (fun t r => match strftime fmt t, r with Some a, Some b => Some (a :: b) | _, _ => None end) (Some []) l.
