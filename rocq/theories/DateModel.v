(** Model of [http::types::get_date_string], src/http_types.cpp:98-112. *)
From Coq Require Import String ZArith List Bool.
From Verif Require Import Base Digits AlgModel.
Import ListNotations.

(** [struct tm], the fields the format uses; the year is the full year, the month counts from 1, the week from Sunday. used at http_types.cpp:98-112 *)
Record tm := mktm { t_year : Z; t_mon : Z; t_mday : Z; t_wday : Z; t_hour : Z; t_min : Z; t_sec : Z }.
(** The date of a day counted from 1 January 1970: the Gregorian calendar, before its introduction too. Years begin with March here, so that
    the leap day is the last one of a year. (C library, not in the repository; from its documentation.); used at http_types.cpp:98-112 *)
Definition civil (n : Z) : Z * Z * Z :=
  let z := n + 719468 in
  let era := z / 146097 in
  let doe := z mod 146097 in
  let yoe := (doe - doe / 1460 + doe / 36524 - doe / 146096) / 365 in
  let doy := doe - (365 * yoe + yoe / 4 - yoe / 100) in
  let mp := (5 * doy + 2) / 153 in
  let m := if mp <? 10 then mp + 3 else mp - 9 in
  (yoe + era * 400 + (if m <=? 2 then 1 else 0), m, doy - (153 * mp + 2) / 5 + 1).
(** [gmtime]: there is no result if the year since 1900 does not fit an [int]. used at http_types.cpp:98-112 *)
Definition gmtime (t : Z) : option tm :=
  let n := t / 86400 in
  let r := t mod 86400 in
  let '(y, m, d) := civil n in
  if (-2147483648 <=? y - 1900) && (y - 1900 <=? 2147483647) then Some (mktm y m d ((n + 4) mod 7) (r / 3600) (r / 60 mod 60) (r mod 60)) else None.
(** The names of days (from Sunday) and months (from 0) of the locale that the program has set. used at http_types.cpp:98-112 *)
Record locale := mkloc { l_days : list (list Z); l_months : list (list Z) }.
(** used at http_types.cpp:98-112 *)
Definition c_locale : locale :=
  mkloc (map bs ["Sun"; "Mon"; "Tue"; "Wed"; "Thu"; "Fri"; "Sat"]%string)
        (map bs ["Jan"; "Feb"; "Mar"; "Apr"; "May"; "Jun"; "Jul"; "Aug"; "Sep"; "Oct"; "Nov"; "Dec"]%string).
(** [%d], [%H], [%M], [%S]; used at http_types.cpp:98-112 *)
Definition two_digits (n : Z) : list Z := [48 + n / 10; 48 + n mod 10].
(** [%Y]; used at http_types.cpp:98-112 *)
Definition print_year (y : Z) : list Z := if y <? 0 then bs "-" ++ print_dec (- y) else print_dec y.
(** [strftime] with the format of http_types.cpp:102 *)
Definition strftime (loc : locale) (x : tm) : list Z :=
  nth (Z.to_nat (t_wday x)) (l_days loc) (bs "?") ++ bs ", " ++ two_digits (t_mday x) ++ bs " " ++ nth (Z.to_nat (t_mon x - 1)) (l_months loc) (bs "?") ++ bs " "
  ++ print_year (t_year x) ++ bs " " ++ two_digits (t_hour x) ++ bs ":" ++ two_digits (t_min x) ++ bs ":" ++ two_digits (t_sec x) ++ bs " GMT".
(** http_types.cpp:98-112. [None]: [strftime] is given a null pointer. A result of 100 or more characters does not fit. *)
Definition get_date_string (loc : locale) (t : Z) : option (list Z) :=
  match gmtime t with
  | None => None
  | Some x => Some (if zlen (strftime loc x) <? 100 then strftime loc x else [])
  end.
