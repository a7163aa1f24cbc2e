(** Specification of the configuration file: its lines, the commands they give, and what executing them does. *)
From Coq Require Import String ZArith List Bool.
From Verif Require Import Base ConfigModel.
Import ListNotations.

(** lines of text with the end of each: carriage return or line feed *)
Definition is_eol (c : Z) : Prop := c = 13 \/ c = 10.
Definition is_blank (c : Z) : Prop := c = 32 \/ c = 9.
Definition is_letter (c : Z) : Prop := 65 <= c <= 90 \/ 97 <= c <= 122.
Definition tline := (list Z * Z)%type.
Definition is_line (l : tline) : Prop := Forall (fun c => ~ is_eol c) (fst l) /\ is_eol (snd l).
Definition text_of (ls : list tline) : list Z := concat (map (fun l => fst l ++ [snd l]) ls).

(** [w] is the word [k] but for the case of letters *)
Definition word (k w : list Z) : Prop := Forall is_letter w /\ Forall2 (fun a b => b = a \/ b = a - 32) k w.
(** one blank or more *)
Definition gap (s : list Z) : Prop := s <> [] /\ Forall is_blank s.
(** a name has no blanks; a value begins with something else *)
Definition name_text (s : list Z) : Prop := s <> [] /\ Forall (fun c => ~ is_blank c) s.
Definition value_text (s : list Z) : Prop := exists c t, s = c :: t /\ ~ is_blank c.

(** the commands *)
Inductive command := CPath (d : list Z) | CAuth (k : kind) | CRestrict (r : list Z) | CUser (u p : list Z) | CService (r n : list Z) | COption (r n v : list Z).
Inductive line_means : list Z -> option command -> Prop :=
  | LM_empty : line_means [] None
  | LM_comment t : line_means (bs "#" ++ t) None
  | LM_path w g v : word (bs "path") w -> gap g -> value_text v -> line_means (w ++ g ++ v) (Some (CPath v))
  | LM_basic w g : word (bs "auth") w -> gap g -> line_means (w ++ g ++ bs "basic") (Some (CAuth KBasic))
  | LM_cookie w g : word (bs "auth") w -> gap g -> line_means (w ++ g ++ bs "cookie") (Some (CAuth KCookie))
  | LM_restrict w g v : word (bs "restrict") w -> gap g -> value_text v -> line_means (w ++ g ++ v) (Some (CRestrict v))
  | LM_user w g u g' v : word (bs "user") w -> gap g -> name_text u -> gap g' -> value_text v -> line_means (w ++ g ++ u ++ g' ++ v) (Some (CUser u v))
  | LM_service w g r g' v : word (bs "service") w -> gap g -> name_text r -> gap g' -> value_text v -> line_means (w ++ g ++ r ++ g' ++ v) (Some (CService r v))
  | LM_option w g r g' n v : word (bs "option") w -> gap g -> name_text r -> gap g' -> value_text (n ++ bs "=" ++ v) -> ~ In 61 n ->
      line_means (w ++ g ++ r ++ g' ++ n ++ bs "=" ++ v) (Some (COption r n v)).

(** Execution of lines: [a] is the authentication so far, [h] the calls so far; [env] tells which calls return. *)
Section Execution.
Variable env : list call -> call -> bool.
Inductive executed : option auth -> list call -> list (list Z) -> list call -> result -> Prop :=
  | X_end a h : executed a h [] (h ++ [XAuth a]) RDone
  | X_skip a h l ls h' r : line_means l None -> executed a h ls h' r -> executed a h (l :: ls) h' r
  | X_malformed a h l ls : (forall c, ~ line_means l c) -> executed a h (l :: ls) h RBad
  | X_path a h l ls d h' r : line_means l (Some (CPath d)) -> executed a (h ++ [XPath d]) ls h' r -> executed a h (l :: ls) h' r
  | X_auth a h l ls k h' r : line_means l (Some (CAuth k)) -> executed (Some (k, [])) h ls h' r -> executed a h (l :: ls) h' r
  | X_restrict k ac h l ls v h' r : line_means l (Some (CRestrict v)) -> executed (Some (k, ac ++ [ARestrict v])) h ls h' r -> executed (Some (k, ac)) h (l :: ls) h' r
  | X_restrict_early h l ls v : line_means l (Some (CRestrict v)) -> executed None h (l :: ls) h RBad
  | X_user k ac h l ls u p h' r : line_means l (Some (CUser u p)) -> executed (Some (k, ac ++ [AUser u p])) h ls h' r -> executed (Some (k, ac)) h (l :: ls) h' r
  | X_user_early h l ls u p : line_means l (Some (CUser u p)) -> executed None h (l :: ls) h RBad
  | X_service a h l ls s n h' r : line_means l (Some (CService s n)) -> env h (XService s n) = true -> executed a (h ++ [XService s n]) ls h' r -> executed a h (l :: ls) h' r
  | X_service_throws a h l ls s n : line_means l (Some (CService s n)) -> env h (XService s n) = false -> executed a h (l :: ls) (h ++ [XService s n]) RThrown
  | X_option a h l ls s n v h' r : line_means l (Some (COption s n v)) -> env h (XOption s n v) = true -> executed a (h ++ [XOption s n v]) ls h' r -> executed a h (l :: ls) h' r
  | X_option_throws a h l ls s n v : line_means l (Some (COption s n v)) -> env h (XOption s n v) = false -> executed a h (l :: ls) (h ++ [XOption s n v]) RThrown.
End Execution.

(** what lines add to an authentication *)
Inductive given : list (list Z) -> list acall -> Prop :=
  | G_end : given [] []
  | G_restrict l ls v x : line_means l (Some (CRestrict v)) -> given ls x -> given (l :: ls) (ARestrict v :: x)
  | G_user l ls u p x : line_means l (Some (CUser u p)) -> given ls x -> given (l :: ls) (AUser u p :: x)
  | G_other l ls x : (forall v, ~ line_means l (Some (CRestrict v))) -> (forall u p, ~ line_means l (Some (CUser u p))) -> given ls x -> given (l :: ls) x.
Definition auth_line (l : list Z) : Prop := exists k, line_means l (Some (CAuth k)).
