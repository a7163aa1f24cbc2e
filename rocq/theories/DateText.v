(** Proofs about the text of dates. *)
From Coq Require Import String ZArith List Bool Lia ZifyBool.
From Verif Require Import Base Digits AlgModel DateModel DateSpec DateProofs.
Import ListNotations.

(** splitting texts *)
Lemma app_inj_len {A} (a a' b b' : list A) : List.length a = List.length a' -> a ++ b = a' ++ b' -> a = a' /\ b = b'.
Proof. revert a'. induction a as [|x a IH]; intros [|x' a'] L E; try discriminate; [auto|]. cbn in E. injection E as -> E. apply IH in E as [-> ->]; auto. Qed.
Lemma app_inj_mark {A} (c : A) a a' b b' : ~ In c a -> ~ In c a' -> a ++ c :: b = a' ++ c :: b' -> a = a' /\ b = b'.
Proof.
  revert a'. induction a as [|x a IH]; intros [|x' a'] N N' E; cbn in E.
  - injection E as ->. auto.
  - injection E as -> E. destruct N'. left. reflexivity.
  - injection E as -> E. destruct N. left. reflexivity.
  - injection E as -> E. destruct (IH a') as [-> ->]; auto; intros Q; [apply N|apply N']; right; exact Q.
Qed.
Lemma fold_undigits l : forall v, fold_left (fun v c => 10 * v + (c - 48)) l v = undigits 10 v (map (fun c => c - 48) l).
Proof. induction l as [|c l IH]; intros v; cbn [fold_left map undigits]; [reflexivity|]. rewrite IH. f_equal. lia. Qed.
Lemma print_decimal n : 0 <= n -> decimal n (print_dec n).
Proof. intros N. split; [apply print_dec_nonempty|]. split; [apply print_dec_digits; exact N|]. rewrite fold_undigits. apply print_dec_value. exact N. Qed.
Lemma two_decimal n : 0 <= n < 100 -> digits2 n (two_digits n).
Proof.
  intros N. split; [|reflexivity]. split; [discriminate|]. unfold two_digits. pose proof (Z_div_mod_eq_full n 10). pose proof (Z.mod_pos_bound n 10). assert (0 <= n / 10 < 10) by (split; [apply Z.div_pos; lia|apply Z.div_lt_upper_bound; lia]).
  split; [repeat constructor; lia|]. cbn [fold_left]. lia.
Qed.
Lemma year_ok y : year_text y (print_year y).
Proof. unfold print_year. destruct (y <? 0) eqn:Y; [right; exists (print_dec (- y)); split; [reflexivity|]; split; [apply print_decimal; lia|lia]|left; apply print_decimal; lia]. Qed.
Lemma decimal_unique n n' l : decimal n l -> decimal n' l -> n = n'.
Proof. intros (_ & _ & A) (_ & _ & B). congruence. Qed.
Lemma decimal_char n l c : decimal n l -> In c l -> 48 <= c <= 57.
Proof. intros (_ & F & _) I. rewrite Forall_forall in F. apply F. exact I. Qed.
Lemma decimal_pos n l : decimal n l -> 0 <= n.
Proof.
  intros (_ & F & <-). assert (K : forall v, 0 <= v -> 0 <= fold_left (fun v c => 10 * v + (c - 48)) l v); [|apply K; lia].
  induction F as [|c l C F IH]; intros v V; cbn [fold_left]; [exact V|]. apply IH. lia.
Qed.
Lemma year_no_space y l : year_text y l -> ~ In 32 l.
Proof. intros [D|(l' & -> & D & _)] I; [apply (decimal_char _ _ _ D) in I; lia|]. destruct I as [I|I]; [discriminate|]. apply (decimal_char _ _ _ D) in I. lia. Qed.
Lemma year_unique y y' l : year_text y l -> year_text y' l -> y = y'.
Proof.
  intros [D|(k & -> & D & N)] [D'|(k' & E & D' & N')].
  - eapply decimal_unique; eauto.
  - subst. exfalso. assert (48 <= 45 <= 57); [|lia]. apply (decimal_char _ _ _ D). left. reflexivity.
  - exfalso. assert (48 <= 45 <= 57); [|lia]. apply (decimal_char _ _ _ D'). left. reflexivity.
  - cbn in E. injection E as <-. pose proof (decimal_unique _ _ _ D D'). lia.
Qed.
Lemma weekday_len n w : weekday n w -> List.length w = 3%nat.
Proof. intros (k & K & _ & ->). assert (k = 0 \/ k = 1 \/ k = 2 \/ k = 3 \/ k = 4 \/ k = 5 \/ k = 6) as Q by lia. intuition; subst; reflexivity. Qed.
Lemma month_cases m : 1 <= m <= 12 -> In m [1; 2; 3; 4; 5; 6; 7; 8; 9; 10; 11; 12].
Proof. intros M. cbn. lia. Qed.
Lemma month_len m w : month_name m w -> List.length w = 3%nat.
Proof. intros (M & ->). apply month_cases in M. cbn in M. intuition; subst; reflexivity. Qed.
Lemma month_unique m m' w : month_name m w -> month_name m' w -> m = m'.
Proof.
  intros (M & E) (M' & E'). rewrite E in E'. clear E. assert (ND : NoDup (map bs ["Jan"; "Feb"; "Mar"; "Apr"; "May"; "Jun"; "Jul"; "Aug"; "Sep"; "Oct"; "Nov"; "Dec"]%string)).
  { repeat (constructor; [cbn; intuition discriminate|]). constructor. }
  rewrite (NoDup_nth _ []) in ND. apply ND in E'; cbn [List.length map]; lia.
Qed.
Lemma mark s : bs " " ++ s = 32 :: s. Proof. reflexivity. Qed.
Theorem unambiguous s t t' : denotes s t -> denotes s t' -> t = t'.
Proof.
  intros (n & h & mi & sec & y & m & d & wd & dd & mo & yy & hh & mm & ss & -> & H & MI & SE & D & WD & DD & MO & YY & HH & MM & SS & ->)
         (n' & h' & mi' & sec' & y' & m' & d' & wd' & dd' & mo' & yy' & hh' & mm' & ss' & -> & H' & MI' & SE' & D' & WD' & DD' & MO' & YY' & HH' & MM' & SS' & E).
  apply app_inj_len in E as [<- E]; [|rewrite (weekday_len _ _ WD), (weekday_len _ _ WD'); reflexivity].
  apply app_inj_len in E as [_ E]; [|reflexivity]. apply app_inj_len in E as [<- E]; [|destruct DD as [_ ->], DD' as [_ ->]; reflexivity].
  apply app_inj_len in E as [_ E]; [|reflexivity]. apply app_inj_len in E as [<- E]; [|rewrite (month_len _ _ MO), (month_len _ _ MO'); reflexivity].
  apply app_inj_len in E as [_ E]; [|reflexivity]. rewrite !(mark (_ ++ _)) in E. apply app_inj_mark in E as [<- E]; [|eapply year_no_space; eauto|eapply year_no_space; eauto].
  apply app_inj_len in E as [<- E]; [|destruct HH as [_ ->], HH' as [_ ->]; reflexivity]. apply app_inj_len in E as [_ E]; [|reflexivity].
  apply app_inj_len in E as [<- E]; [|destruct MM as [_ ->], MM' as [_ ->]; reflexivity]. apply app_inj_len in E as [_ E]; [|reflexivity].
  apply app_inj_len in E as [<- _]; [|destruct SS as [_ ->], SS' as [_ ->]; reflexivity].
  destruct DD as [DD _], DD' as [DD' _], HH as [HH _], HH' as [HH' _], MM as [MM _], MM' as [MM' _], SS as [SS _], SS' as [SS' _].
  rewrite (decimal_unique _ _ _ DD' DD) in *. rewrite (decimal_unique _ _ _ HH' HH), (decimal_unique _ _ _ MM' MM), (decimal_unique _ _ _ SS' SS).
  rewrite (month_unique _ _ _ MO' MO) in *. rewrite (year_unique _ _ _ YY' YY) in *. rewrite (day_inj _ _ _ D D'). reflexivity.
Qed.
(** the text is what it should be *)
Lemma weekday_name n : weekday n (nth (Z.to_nat ((n + 4) mod 7)) (l_days c_locale) (bs "?")).
Proof.
  exists (n mod 7). pose proof (Z.mod_pos_bound n 7 ltac:(lia)) as B. split; [exact B|]. split; [exists (n / 7); pose proof (Z_div_mod_eq_full n 7); lia|].
  assert ((n + 4) mod 7 = (n mod 7 + 4) mod 7) as -> by (rewrite Zplus_mod_idemp_l; reflexivity).
  assert (n mod 7 = 0 \/ n mod 7 = 1 \/ n mod 7 = 2 \/ n mod 7 = 3 \/ n mod 7 = 4 \/ n mod 7 = 5 \/ n mod 7 = 6) as Q by lia. clear B.
  destruct Q as [Q|[Q|[Q|[Q|[Q|[Q|Q]]]]]]; rewrite Q; reflexivity.
Qed.
Lemma month_name_ok m : 1 <= m <= 12 -> month_name m (nth (Z.to_nat (m - 1)) (l_months c_locale) (bs "?")).
Proof. intros M. split; [exact M|]. apply month_cases in M. cbn in M. intuition; subst; reflexivity. Qed.
Lemma clock r : 0 <= r < 86400 -> r = 3600 * (r / 3600) + 60 * (r / 60 mod 60) + r mod 60 /\ 0 <= r / 3600 < 24 /\ 0 <= r / 60 mod 60 < 60 /\ 0 <= r mod 60 < 60.
Proof.
  intros R. pose proof (Z_div_mod_eq_full r 60). pose proof (Z_div_mod_eq_full (r / 60) 60) as Q. rewrite Z.div_div in Q by lia. change (60 * 60) with 3600 in Q.
  pose proof (Z.mod_pos_bound r 60 ltac:(lia)). pose proof (Z.mod_pos_bound (r / 60) 60 ltac:(lia)). assert (0 <= r / 3600 < 24) by (split; [apply Z.div_pos; lia|apply Z.div_lt_upper_bound; lia]). lia.
Qed.
Lemma strftime_denotes t x : gmtime t = Some x -> denotes (strftime c_locale x) t /\ day (t / 86400) (t_year x, t_mon x, t_mday x).
Proof.
  unfold gmtime. pose proof (day_civil (t / 86400)) as D. destruct (civil_good (t / 86400)) as [_ V]. destruct (civil (t / 86400)) as [[y m] d]. destruct (_ && _); [|discriminate]. intros E. injection E as <-.
  cbn [t_year t_mon t_mday]. split; [|exact D]. pose proof (Z.mod_pos_bound t 86400 ltac:(lia)) as R. destruct (clock _ R) as (C & C1 & C2 & C3). destruct V as [V1 V2]. pose proof (month_pos y m).
  exists (t / 86400), (t mod 86400 / 3600), (t mod 86400 / 60 mod 60), (t mod 86400 mod 60), y, m, d. do 7 eexists.
  split; [pose proof (Z_div_mod_eq_full t 86400); lia|]. split; [exact C1|]. split; [exact C2|]. split; [exact C3|]. split; [exact D|].
  split; [apply weekday_name|]. split; [apply two_decimal; lia|]. split; [apply month_name_ok; exact V1|]. split; [apply year_ok|].
  split; [apply two_decimal; lia|]. split; [apply two_decimal; lia|]. split; [apply two_decimal; lia|]. reflexivity.
Qed.
Lemma decimal_below n l : decimal n l -> n < 10 ^ zlen l.
Proof.
  intros (_ & F & <-). assert (K : forall v, 0 <= v -> fold_left (fun v c => 10 * v + (c - 48)) l v < (v + 1) * 10 ^ zlen l); [|specialize (K 0 ltac:(lia)); lia].
  induction F as [|c l C F IH]; intros v V. { cbn. lia. } cbn [fold_left]. specialize (IH (10 * v + (c - 48)) ltac:(lia)). unfold zlen in *. cbn [List.length]. rewrite Nat2Z.inj_succ, Z.pow_succ_r by lia.
  assert (0 < 10 ^ Z.of_nat (List.length l)) by (apply Z.pow_pos_nonneg; lia). nia.
Qed.
Lemma print_dec_len k n : 0 <= n < 10 ^ Z.of_nat (S k) -> zlen (print_dec n) <= Z.of_nat (S k).
Proof. intros N. unfold print_dec. pose proof (digits_len 10 k n ltac:(lia) N). unfold zlen in *. rewrite map_length. exact H. Qed.
Lemma year_len y : -10000000000 < y < 10000000000 -> zlen (print_year y) <= 11.
Proof.
  intros Y. unfold print_year. destruct (y <? 0) eqn:S.
  - pose proof (print_dec_len 9 (- y) ltac:(change (10 ^ Z.of_nat 10) with 10000000000; lia)). unfold zlen in *. rewrite app_length. cbn [List.length bs]. lia.
  - pose proof (print_dec_len 9 y ltac:(change (10 ^ Z.of_nat 10) with 10000000000; lia)). lia.
Qed.
Lemma four_len y : 1000 <= y <= 9999 -> zlen (print_year y) = 4.
Proof.
  intros Y. unfold print_year. assert (y <? 0 = false) as -> by lia. pose proof (print_dec_len 3 y ltac:(change (10 ^ Z.of_nat 4) with 10000; lia)).
  pose proof (decimal_below _ _ (print_decimal y ltac:(lia))) as B. assert (0 <= zlen (print_dec y)) by (unfold zlen; lia). assert (zlen (print_dec y) < 4 -> False); [|lia].
  intros Q. assert (10 ^ zlen (print_dec y) <= 10 ^ 3) by (apply Z.pow_le_mono_r; lia). change (10 ^ 3) with 1000 in *. lia.
Qed.
Lemma strftime_len t x : gmtime t = Some x -> zlen (strftime c_locale x) = 25 + zlen (print_year (t_year x)) /\ -2147481748 <= t_year x <= 2147485547.
Proof.
  unfold gmtime. destruct (civil_good (t / 86400)) as [_ V]. destruct (civil (t / 86400)) as [[y m] d]. destruct (_ && _) eqn:Q; [|discriminate]. intros E. injection E as <-.
  unfold strftime. cbn [t_year t_mon t_mday t_wday t_hour t_min t_sec]. split; [|lia].
  pose proof (weekday_len _ _ (weekday_name (t / 86400))) as L1. destruct V as [V _]. pose proof (month_len _ _ (month_name_ok m V)) as L2.
  unfold zlen. rewrite !app_length, L1, L2. cbn [List.length bs two_digits]. lia.
Qed.
Lemma date_string t x : gmtime t = Some x -> get_date_string c_locale t = Some (strftime c_locale x).
Proof.
  intros G. unfold get_date_string. rewrite G. destruct (strftime_len _ _ G) as [L Y]. pose proof (year_len (t_year x) ltac:(lia)).
  assert (zlen (strftime c_locale x) <? 100 = true) as -> by lia. reflexivity.
Qed.
Lemma gmtime_some t : (exists x, gmtime t = Some x) <-> holds_year t.
Proof.
  unfold gmtime, holds_year. pose proof (day_civil (t / 86400)) as D. destruct (civil (t / 86400)) as [[y m] d] eqn:C. split.
  - intros [x E]. destruct (_ && _) eqn:Q; [|discriminate]. exists y, m, d. split; [exact D|]. lia.
  - intros (y' & m' & d' & D' & Q). apply civil_day in D'. rewrite C in D'. injection D' as -> -> ->. assert ((-2147483648 <=? y - 1900) && (y - 1900 <=? 2147483647) = true) as -> by lia. eauto.
Qed.
(** later days have later dates *)
Lemma later a b : a <= b -> let '(y, m, d) := civil a in let '(y', m', d') := civil b in 372 * y + 31 * m + d <= 372 * y' + 31 * m' + d'.
Proof.
  intros AB. replace b with (a + Z.of_nat (Z.to_nat (b - a))) by lia. generalize (Z.to_nat (b - a)) as k. clear AB. induction k as [|k IH].
  { replace (a + Z.of_nat 0) with a by lia. destruct (civil a) as [[y m] d]. lia. }
  destruct (civil a) as [[y m] d]. replace (a + Z.of_nat (S k)) with (a + Z.of_nat k + 1) by lia. destruct (civil_good (a + Z.of_nat k)) as [-> V]. destruct (civil (a + Z.of_nat k)) as [[y1 m1] d1].
  cbn [valid next_day] in *. pose proof (month_pos y1 m1). destruct (d1 <? month_days y1 m1) eqn:Q; [lia|]. destruct (m1 <? 12) eqn:M; lia.
Qed.
Lemma four_year t : four_digit_year t -> exists y m d, day (t / 86400) (y, m, d) /\ 1000 <= y <= 9999.
Proof.
  intros [A B]. pose proof (day_civil (t / 86400)) as D. destruct (civil_good (t / 86400)) as [_ V].
  pose proof (later (-354285) (t / 86400)) as L1. pose proof (later (t / 86400) 2932896) as L2.
  replace (civil (-354285)) with (1000, 1, 1) in L1 by (vm_compute; reflexivity). replace (civil 2932896) with (9999, 12, 31) in L2 by (vm_compute; reflexivity).
  destruct (civil (t / 86400)) as [[y m] d]. exists y, m, d. split; [exact D|]. pose proof (month_pos y m). cbn [valid] in V.
  specialize (L1 ltac:(apply Z.div_le_lower_bound; lia)). specialize (L2 ltac:(apply Z.lt_succ_r, Z.div_lt_upper_bound; lia)). lia.
Qed.
