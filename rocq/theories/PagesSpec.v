(** Specification of error pages: which markup they have and which text they show. *)
From Coq Require Import String ZArith List Bool.
From Verif Require Import Base AlgSpec.
Import ListNotations.

(** the tags of a page: each [<] and what follows to the next [>] *)
Fixpoint tags (inside : bool) (s : list Z) : list Z :=
  match s with
  | [] => []
  | c :: s => if inside then c :: tags (negb (c =? ch ">")) s else if c =? ch "<" then c :: tags true s else tags false s
  end.
(** the text of a page: what is outside the tags *)
Fixpoint text (inside : bool) (s : list Z) : list Z :=
  match s with
  | [] => []
  | c :: s => if inside then text (negb (c =? ch ">")) s else if c =? ch "<" then text true s else c :: text false s
  end.
Definition markup : list Z -> list Z := tags false.
Definition shown : list Z -> list Z := text false.

(** the tags of a plain page, and those of the pages with a message set off *)
Definition plain_page : list Z := bs "<html><head><title></title></head><body><h1></h1><p></p></body></html>".
Definition strong_page : list Z := bs "<html><head><title></title></head><body><h1></h1><p><strong></strong></p></body></html>".
Definition second_page : list Z := bs "<html><head><title></title></head><body><h1></h1><p></p><p><strong></strong></p></body></html>".
Definition delete_page : list Z := bs "<html><head><title></title></head><body><h1></h1><p></p><p></p></body></html>".

(** the page shows [about] between the texts [before] and [after] *)
Definition shows (page before about after : list Z) : Prop :=
  exists t, shown page = before ++ t ++ after /\ xml_clean about (xml_unescape t).
(** the text has none of the characters of tags *)
Definition tagless (s : list Z) : Prop := ~ In (ch "<") s /\ ~ In (ch ">") s.
