(** Specifications for forms and cookies, independent of the parsers. *)
From Coq Require Import String ZArith List Bool.
From Verif Require Import Base AlgModel.
Import ListNotations.

(** Split at every separator (n separators give n+1 fields). *)
Fixpoint split_on (sep : Z) (s : list Z) : list (list Z) :=
  match s with
  | [] => [[]]
  | c :: r => if c =? sep then [] :: split_on sep r
              else match split_on sep r with h :: t => (c :: h) :: t | [] => [[c]] end
  end.

(** Split at the first separator, if there is one. *)
Fixpoint break_at (sep : Z) (s : list Z) : list Z * option (list Z) :=
  match s with
  | [] => ([], None)
  | c :: r => if c =? sep then ([], Some r) else let (a, b) := break_at sep r in (c :: a, b)
  end.

(** Line breaks and tabs are ignored in forms; other control characters are errors. *)
Definition form_blank (c : Z) : bool := (c =? 9) || (c =? 10) || (c =? 13).
Definition form_bad (c : Z) : bool := (c <=? 31) || (c =? 127).
Definition form_strip (s : list Z) : list Z := filter (fun c => negb (form_blank c)) s.

(** The raw name and values of one field "name=v1,v2,..." or "name". *)
Definition field_name (p : list Z) : list Z := fst (break_at (ch "=") p).
Definition field_values (p : list Z) : list (list Z) :=
  match snd (break_at (ch "=") p) with None => [[]] | Some v => split_on (ch ",") v end.
(** Fields without a name are skipped. *)
Definition field_pairs (p : list Z) : list (list Z * list Z) :=
  match field_name p with
  | [] => []
  | n => map (fun v => (url_decode n, url_decode v)) (field_values p)
  end.
(** Names up to 1024 characters, values up to 1 MiB, no control characters. *)
Definition field_ok (p : list Z) : bool :=
  forallb (fun c => negb (form_bad c)) p
  && (zlen (field_name p) <=? 1024)
  && forallb (fun v => zlen v <=? 1048576) (field_values p).
Definition form_ok (s : list Z) : bool := forallb field_ok (split_on (ch "&") (form_strip s)).
Definition form_pairs (s : list Z) : list (list Z * list Z) :=
  concat (map field_pairs (split_on (ch "&") (form_strip s))).

(** Cookies. *)
Definition cookie_ctl (c : Z) : bool := (c <=? 31) || (c =? 127).
Definition cookie_name_char (c : Z) : bool :=
  negb (existsb (Z.eqb c) (bs "=;, ")) && negb (cookie_ctl c).
Definition cookie_value_char (c : Z) : bool := negb (existsb (Z.eqb c) (bs ";,")) && negb (cookie_ctl c).
Definition cookie_name_ok (n : list Z) : Prop :=
  n <> [] /\ Forall is_byte n /\ Forall (fun c => cookie_name_char c = true) n /\ zlen n <= 1024 /\ hd 0 n <> ch "$".
(** Unquoted values: no leading blank or quote. *)
Definition cookie_value_ok (v : list Z) : Prop :=
  Forall is_byte v /\ Forall (fun c => cookie_value_char c = true) v /\ zlen v <= 1048576
  /\ hd 0 v <> ch " " /\ hd 0 v <> 34 /\ hd 0 v <> 39.
(** Quoted values: anything but the quote. *)
Definition cookie_quoted_ok (v : list Z) : Prop := ~ In 34 v /\ zlen v <= 1048576.

Definition ascii_lower (c : Z) : Z := if (65 <=? c) && (c <=? 90) then c + 32 else c.
Definition reserved_cookie_names : list (list Z) :=
  map bs ["comment"; "domain"; "max-age"; "path"; "secure"; "version"; "expires"; "httponly"]%string.
Definition not_reserved (n : list Z) : Prop := ~ In (map ascii_lower n) reserved_cookie_names.

(** "n1=v1; n2=v2; ..." *)
Fixpoint cookie_header (l : list (list Z * list Z)) : list Z :=
  match l with
  | [] => []
  | [(n, v)] => n ++ ch "=" :: v
  | (n, v) :: l' => n ++ ch "=" :: v ++ bs "; " ++ cookie_header l'
  end.
