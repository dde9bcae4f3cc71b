(* The Gregorian calendar, day by day. *)
From Coq Require Import ZArith Bool.
Local Open Scope Z_scope.

Definition leap (y : Z) : bool := ((y mod 4 =? 0) && negb (y mod 100 =? 0)) || (y mod 400 =? 0).
Definition month_days (y m : Z) : Z :=
  if m =? 2 then (if leap y then 29 else 28) else if (m =? 4) || (m =? 6) || (m =? 9) || (m =? 11) then 30 else 31.
Definition date : Type := Z * Z * Z.   (* year, month 1..12, day *)
Definition valid (x : date) : Prop := let '(y, m, d) := x in 1 <= m <= 12 /\ 1 <= d <= month_days y m.
Definition tomorrow (x : date) : date :=
  let '(y, m, d) := x in
  if d <? month_days y m then (y, m, d + 1) else if m <? 12 then (y, m + 1, 1) else (y + 1, 1, 1).
(* day n of the epoch (negative before it) is the date x *)
Inductive on_day : Z -> date -> Prop :=
| D_epoch : on_day 0 (1970, 1, 1)
| D_next n x : on_day n x -> on_day (n + 1) (tomorrow x)
| D_prev n x : valid x -> on_day (n + 1) (tomorrow x) -> on_day n x.
