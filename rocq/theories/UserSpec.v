(** Specification of the user manager. *)
From Coq Require Import String ZArith List.
From Verif Require Import Base UserModel.
Import ListNotations.

(** what is known of a user: a password, or a hash given in hexadecimal *)
Inductive secret := Password (p : list Z) | Hash (h : list Z).
(** the value of two hexadecimal digits, in either case *)
Definition hex_pair (a b v : Z) : Prop :=
  exists x y, 0 <= x < 16 /\ 0 <= y < 16 /\ v = 16 * x + y
    /\ (a = nth (Z.to_nat x) (bs "0123456789abcdef") 0 \/ a = nth (Z.to_nat x) (bs "0123456789ABCDEF") 0)
    /\ (b = nth (Z.to_nat y) (bs "0123456789abcdef") 0 \/ b = nth (Z.to_nat y) (bs "0123456789ABCDEF") 0).
Inductive in_hex : list Z -> list Z -> Prop :=
  | in_hex_nil : in_hex [] []
  | in_hex_cons a b v s l : hex_pair a b v -> in_hex s l -> in_hex (a :: b :: s) (v :: l).
(** the hash functions give 32 and 20 bytes *)
Definition real_hashes (b : build) : Prop := forall x, List.length (b_sha256 b x) = 32%nat /\ List.length (b_sha1 b x) = 20%nat.

(** [pw] is a password that fits *)
Definition fits (b : build) (s : secret) (pw : list Z) : Prop :=
  match s with
  | Password p => if b_ssl b then b_sha256 b pw = b_sha256 b p else pw = p
  | Hash h => List.length h = 64%nat /\ in_hex h (b_sha256 b pw) \/ List.length h = 40%nat /\ in_hex h (b_sha1 b pw)
  end.

(** a finite map from names to secrets *)
Definition umap := list Z -> option secret.
Definition assign (f : umap) (n : list Z) (s : option secret) : umap := fun k => if list_eq_dec Z.eq_dec k n then s else f k.
Definition hash_size (h : list Z) : Prop := List.length h = 64%nat \/ List.length h = 40%nat.
(** one call, from map to map, and its result *)
Inductive call (b : build) : umap -> uop -> umap -> ures -> Prop :=
  | call_add f n p : f n = None -> call b f (UAdd n p) (assign f n (Some (Password p))) UTrue
  | call_add_no f n p : f n <> None -> call b f (UAdd n p) f UFalse
  | call_update f n p : f n <> None -> call b f (UUpdate n p) (assign f n (Some (Password p))) UTrue
  | call_update_no f n p : f n = None -> call b f (UUpdate n p) f UFalse
  | call_add_hash f n h : f n = None -> hash_size h -> call b f (UAddHash n h) (assign f n (Some (Hash h))) UTrue
  | call_add_hash_bad f n h : f n = None -> ~ hash_size h -> call b f (UAddHash n h) f UThrow
  | call_add_hash_no f n h : f n <> None -> call b f (UAddHash n h) f UFalse
  | call_update_hash f n h : f n <> None -> hash_size h -> call b f (UUpdateHash n h) (assign f n (Some (Hash h))) UTrue
  | call_update_hash_bad f n h : f n <> None -> ~ hash_size h -> call b f (UUpdateHash n h) f UThrow
  | call_update_hash_no f n h : f n = None -> call b f (UUpdateHash n h) f UFalse
  | call_remove f n : f n <> None -> call b f (URemove n) (assign f n None) UTrue
  | call_remove_no f n : f n = None -> call b f (URemove n) f UFalse.
(** calls one after the other *)
Inductive calls (b : build) : umap -> list uop -> umap -> list ures -> Prop :=
  | calls_nil f : calls b f [] f []
  | calls_cons f o f1 r l f2 rs : call b f o f1 r -> calls b f1 l f2 rs -> calls b f (o :: l) f2 (r :: rs).
(** A call the build has, with a hash in hexadecimal if its length is that of one. *)
Definition sound_call (b : build) (o : uop) : Prop :=
  match o with
  | UAddHash _ h | UUpdateHash _ h => b_ssl b = true /\ (hash_size h -> exists l, in_hex h l)
  | _ => True
  end.
Definition nobody : umap := fun _ => None.
(** after the calls [ops], [pw] is a password of [n] *)
Definition knows (b : build) (ops : list uop) (n pw : list Z) : Prop :=
  forall f rs, calls b nobody ops f rs -> exists s, f n = Some s /\ fits b s pw.
