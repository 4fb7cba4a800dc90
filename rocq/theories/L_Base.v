(* Lemmas about Base and Spec. *)
From Coq Require Import ZArith Lia ZifyBool ZifyNat ZifyN.
From Verif Require Import Base G_Enums M_Raw Spec.
Local Open Scope N_scope.
Ltac Zify.zify_post_hook ::= Z.div_mod_to_equations.

Lemma len_nil {A} : len (@nil A) = 0.
Proof. reflexivity. Qed.
Lemma len_cons {A} (x : A) l : len (x :: l) = 1 + len l.
Proof. unfold len; cbn [length]; lia. Qed.
Lemma len_app {A} (l1 l2 : list A) : len (l1 ++ l2) = len l1 + len l2.
Proof. unfold len; rewrite app_length; lia. Qed.
Lemma len_take {A} n (l : list A) : len (take n l) = N.min n (len l).
Proof. unfold len, take; rewrite firstn_length; lia. Qed.
Lemma len_drop {A} n (l : list A) : len (drop n l) = len l - n.
Proof. unfold len, drop; rewrite skipn_length; lia. Qed.
Lemma len_rev {A} (l : list A) : len (rev l) = len l.
Proof. unfold len; rewrite rev_length; lia. Qed.
Lemma len_0 {A} (l : list A) : len l = 0 -> l = [].
Proof. destruct l; [reflexivity|]; rewrite len_cons; lia. Qed.
#[global] Hint Rewrite @len_nil @len_cons @len_app @len_take @len_drop @len_rev : len.

Ltac lens := autorewrite with len in *.
Ltac llia := autorewrite with len in *; lia.

Lemma take_0 {A} (l : list A) : take 0 l = [].
Proof. reflexivity. Qed.
Lemma drop_0 {A} (l : list A) : drop 0 l = l.
Proof. reflexivity. Qed.
Lemma take_all {A} n (l : list A) : len l <= n -> take n l = l.
Proof. unfold len, take; intros H; apply firstn_all2; lia. Qed.
Lemma drop_all {A} n (l : list A) : len l <= n -> drop n l = [].
Proof. unfold len, drop; intros H; apply skipn_all2; lia. Qed.
Lemma take_drop {A} n (l : list A) : take n l ++ drop n l = l.
Proof. apply firstn_skipn. Qed.
Lemma take_app_le {A} n (l1 l2 : list A) : n <= len l1 -> take n (l1 ++ l2) = take n l1.
Proof.
  unfold len, take; intros H. rewrite firstn_app.
  replace (N.to_nat n - length l1)%nat with 0%nat by lia. cbn. apply app_nil_r.
Qed.
Lemma take_app_ge {A} n (l1 l2 : list A) : len l1 <= n -> take n (l1 ++ l2) = l1 ++ take (n - len l1) l2.
Proof.
  unfold len, take; intros H. rewrite firstn_app.
  rewrite (firstn_all2 (n := N.to_nat n)) by lia.
  f_equal. f_equal. lia.
Qed.
Lemma drop_app_le {A} n (l1 l2 : list A) : n <= len l1 -> drop n (l1 ++ l2) = drop n l1 ++ l2.
Proof.
  unfold len, drop; intros H. rewrite skipn_app.
  replace (N.to_nat n - length l1)%nat with 0%nat by lia. reflexivity.
Qed.
Lemma drop_app_ge {A} n (l1 l2 : list A) : len l1 <= n -> drop n (l1 ++ l2) = drop (n - len l1) l2.
Proof.
  unfold len, drop; intros H. rewrite skipn_app.
  rewrite (skipn_all2 (n := N.to_nat n)) by lia.
  cbn. f_equal. lia.
Qed.
Lemma take_app_exact {A} n (l1 l2 : list A) : n = len l1 -> take n (l1 ++ l2) = l1.
Proof. intros ->. rewrite take_app_le by lia. apply take_all; lia. Qed.
Lemma drop_app_exact {A} n (l1 l2 : list A) : n = len l1 -> drop n (l1 ++ l2) = l2.
Proof. intros ->. rewrite drop_app_ge by lia. replace (len l1 - len l1) with 0 by lia. reflexivity. Qed.
Lemma skipn_skipn' {A} (a b : nat) (l : list A) : skipn a (skipn b l) = skipn (b + a) l.
Proof. revert l; induction b as [|b IH]; intros l; [reflexivity|]. destruct l; cbn; [apply skipn_nil|apply IH]. Qed.
Lemma drop_drop {A} a b (l : list A) : drop a (drop b l) = drop (a + b) l.
Proof. unfold drop. rewrite skipn_skipn'. f_equal. lia. Qed.
Lemma take_take {A} a b (l : list A) : take a (take b l) = take (N.min a b) l.
Proof. unfold take. rewrite firstn_firstn. f_equal. lia. Qed.
Lemma drop_take {A} a b (l : list A) : drop a (take b l) = take (b - a) (drop a l).
Proof.
  unfold take, drop. rewrite firstn_skipn_comm.
  destruct (Nat.le_gt_cases (N.to_nat a) (N.to_nat b)) as [H|H].
  - f_equal. f_equal. lia.
  - rewrite !skipn_all2; [reflexivity| |]; rewrite firstn_length; lia.
Qed.
Lemma take_drop_take {A} w o n (l : list A) :
  o + w <= n -> take w (drop o (take n l)) = take w (drop o l).
Proof. intros H. rewrite drop_take, take_take. f_equal. lia. Qed.

Lemma little_le l : little l = le l.
Proof. unfold little. induction l as [|b l IH]; [reflexivity|]. cbn [fold_right le]. rewrite IH. reflexivity. Qed.

Lemma le_bound l : all_bytes l -> le l < 256 ^ len l.
Proof.
  induction 1 as [|b l Hb _ IH]; [reflexivity|].
  rewrite len_cons, N.add_1_l, N.pow_succ_r'. cbn [le]. unfold is_byte in Hb. lia.
Qed.

Lemma all_bytes_app l1 l2 : all_bytes (l1 ++ l2) <-> all_bytes l1 /\ all_bytes l2.
Proof. apply Forall_app. Qed.
Lemma all_bytes_take n l : all_bytes l -> all_bytes (take n l).
Proof. intros H. rewrite <- (take_drop n l) in H. apply all_bytes_app in H. tauto. Qed.
Lemma all_bytes_drop n l : all_bytes l -> all_bytes (drop n l).
Proof. intros H. rewrite <- (take_drop n l) in H. apply all_bytes_app in H. tauto. Qed.

Lemma at_le o w p : at_ o w p = little (take w (drop o p)).
Proof. symmetry. apply little_le. Qed.

Lemma slice_get_some {A} (l : list A) a b s :
  slice_get l a b = Some s <-> a <= b /\ b <= len l /\ s = take (b - a) (drop a l).
Proof.
  unfold slice_get. destruct (N.leb_spec a b); destruct (N.leb_spec b (len l)); cbn;
    split; try discriminate; try (intros [? [? ?]]; try lia); try (intros [= <-]; auto); subst; auto.
Qed.
Lemma slice_get_none {A} (l : list A) a b :
  slice_get l a b = None <-> b < a \/ len l < b.
Proof.
  unfold slice_get. destruct (N.leb_spec a b); destruct (N.leb_spec b (len l)); cbn;
    split; try discriminate; auto; lia.
Qed.

Lemma slice_get_from_some {A} (l : list A) a s :
  slice_get_from l a = Some s <-> a <= len l /\ s = drop a l.
Proof.
  unfold slice_get_from. destruct (N.leb_spec a (len l)); split; try discriminate; try lia.
  - intros [= <-]; auto.
  - intros [_ ->]; auto.
Qed.

Lemma nth_error_len {A} (l : list A) i : i < len l -> exists x, nth_error l (N.to_nat i) = Some x.
Proof.
  intros H. destruct (nth_error l (N.to_nat i)) eqn:E; [eauto|].
  apply nth_error_None in E. unfold len in H. lia.
Qed.

Lemma nth_error_drop {A} (l : list A) i j : nth_error (drop i l) j = nth_error l (N.to_nat i + j).
Proof.
  unfold drop. generalize (N.to_nat i) as k. intros k. revert l.
  induction k as [|k IH]; intros l; [reflexivity|].
  destruct l; cbn; [destruct j; reflexivity|apply IH].
Qed.

(* iteration *)
Lemma drains_runs {S A} (next : S -> out (option A * S)) s l s' :
  drains next s l s' <-> runs next s l (Exhausted s').
Proof.
  split.
  - induction 1; econstructor; eauto.
  - intros H. remember (Exhausted s') as e eqn:E.
    induction H; inversion E; subst; econstructor; eauto.
Qed.

Lemma runs_fun {S A} (next : S -> out (option A * S)) s l1 e1 l2 e2 :
  runs next s l1 e1 -> runs next s l2 e2 -> l1 = l2 /\ e1 = e2.
Proof.
  intros H. revert l2 e2. induction H as [s s' H|s H|s H|s a s1 l e H _ IH]; intros l2 e2 H2;
    inversion H2; subst; try congruence; try (split; congruence).
  assert (a0 = a /\ s2 = s1) as [-> ->] by (split; congruence).
  destruct (IH _ _ H1) as [-> ->]. auto.
Qed.

Lemma drains_fun {S A} (next : S -> out (option A * S)) s l1 s1 l2 s2 :
  drains next s l1 s1 -> drains next s l2 s2 -> l1 = l2 /\ s1 = s2.
Proof.
  rewrite !drains_runs. intros H1 H2. destruct (runs_fun _ _ _ _ _ _ H1 H2) as [-> E].
  injection E as ->. auto.
Qed.

(* decision procedure, used by the examples *)
Lemma all_bytes_dec l : forallb (fun b => b <? 256) l = true -> all_bytes l.
Proof.
  intros H. apply Forall_forall. intros x Hx. rewrite forallb_forall in H. specialize (H x Hx).
  unfold is_byte. lia.
Qed.
