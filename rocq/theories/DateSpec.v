(** The calendar, day by day, and what a date in a header stands for (RFC 7231, 7.1.1.1). *)
From Coq Require Import String ZArith List Bool.
From Verif Require Import Base.
Import ListNotations.

Definition leap (y : Z) : bool := ((y mod 4 =? 0) && negb (y mod 100 =? 0)) || (y mod 400 =? 0).
Definition month_days (y m : Z) : Z := if m =? 2 then (if leap y then 29 else 28) else if (m =? 4) || (m =? 6) || (m =? 9) || (m =? 11) then 30 else 31.
Definition valid (x : Z * Z * Z) : Prop := let '(y, m, d) := x in 1 <= m <= 12 /\ 1 <= d <= month_days y m.
Definition next_day (x : Z * Z * Z) : Z * Z * Z :=
  let '(y, m, d) := x in if d <? month_days y m then (y, m, d + 1) else if m <? 12 then (y, m + 1, 1) else (y + 1, 1, 1).
(** the date of the [n]th day after 1 January 1970, which was a Thursday *)
Inductive day : Z -> Z * Z * Z -> Prop :=
| day_epoch : day 0 (1970, 1, 1)
| day_after n x : day n x -> day (n + 1) (next_day x)
| day_before n x : valid x -> day (n + 1) (next_day x) -> day n x.
Definition weekday (n : Z) (name : list Z) : Prop :=
  exists k, 0 <= k < 7 /\ (exists q, n = 7 * q + k) /\ name = nth (Z.to_nat k) (map bs ["Thu"; "Fri"; "Sat"; "Sun"; "Mon"; "Tue"; "Wed"]%string) [].
Definition month_name (m : Z) (name : list Z) : Prop :=
  1 <= m <= 12 /\ name = nth (Z.to_nat (m - 1)) (map bs ["Jan"; "Feb"; "Mar"; "Apr"; "May"; "Jun"; "Jul"; "Aug"; "Sep"; "Oct"; "Nov"; "Dec"]%string) [].
(** [l] is written in decimal digits and has the value [n] *)
Definition decimal (n : Z) (l : list Z) : Prop := l <> [] /\ Forall (fun c => 48 <= c <= 57) l /\ fold_left (fun v c => 10 * v + (c - 48)) l 0 = n.
Definition digits2 (n : Z) (l : list Z) : Prop := decimal n l /\ List.length l = 2%nat.
Definition year_text (y : Z) (l : list Z) : Prop := decimal y l \/ exists l', l = bs "-" ++ l' /\ decimal (- y) l' /\ y < 0.
(** The text [s] is the date and time [t] seconds after the epoch. *)
Definition denotes (s : list Z) (t : Z) : Prop :=
  exists n h mi sec y m d wd dd mo yy hh mm ss,
    t = 86400 * n + 3600 * h + 60 * mi + sec /\ 0 <= h < 24 /\ 0 <= mi < 60 /\ 0 <= sec < 60 /\ day n (y, m, d) /\
    weekday n wd /\ digits2 d dd /\ month_name m mo /\ year_text y yy /\ digits2 h hh /\ digits2 mi mm /\ digits2 sec ss /\
    s = wd ++ bs ", " ++ dd ++ bs " " ++ mo ++ bs " " ++ yy ++ bs " " ++ hh ++ bs ":" ++ mm ++ bs ":" ++ ss ++ bs " GMT".
(** the times whose year is 1000 to 9999 *)
Definition four_digit_year (t : Z) : Prop := -30610224000 <= t < 253402300800.
(** the times that a [struct tm] can hold *)
Definition holds_year (t : Z) : Prop := exists y m d, day (t / 86400) (y, m, d) /\ -2147481748 <= y <= 2147485547.
