(* Lemmas about bit field iterators in states that `iter()` does not build. *)
From Coq Require Import String.
From Coq Require Import ZArith Lia ZifyBool ZifyNat ZifyN.
From Verif Require Import Base M_Bitfield M_Debug Spec S_Bitfield S_Text L_Base L_Bitfield L_Text L_Texts L_Texts2.
Local Open Scope N_scope.

Lemma iter_from c size v l p : size <= 16 -> size * 8 <= len l -> p <= size * 8 -> exists it,
  drains (iter_next c) (at_pos size v p l) (flags v p (take (size * 8 - p) (drop p l))) it /\ none_forever (iter_next c) it.
Proof.
  intros H1 H2 H3. exists (at_pos size v (size * 8) l). split.
  - now apply (iter_drains c size v l _ H1 p).
  - intros n. induction n as [|n IH]; [exact I|]. cbn [nones]. eexists. split; [apply iter_end|exact IH].
Qed.

Lemma beyond_step c size v l p : size * 8 < p ->
  iter_next c (at_pos size v p l) = Panic \/
  exists f, iter_next c (at_pos size v p l) = Val (Some f, at_pos size v (p + 1) l) /\ p < len l.
Proof.
  intros H. unfold iter_next. cbn [at_pos it_size it_index it_value it_layout].
  destruct (N.eqb_spec p (size * 8)); [lia|].
  assert (S : shl1 c 128 p = Panic \/ exists b, shl1 c 128 p = Val b).
  { unfold shl1. destruct (p <? 128); [eauto|]. destruct (overflow_checks c); eauto. }
  destruct S as [->|[b ->]]; [left; reflexivity|]. cbn [obind]. unfold index.
  destruct (nth_error l (N.to_nat p)) as [t|] eqn:T; cbn [obind]; [|left; reflexivity].
  right. eexists. split; [reflexivity|].
  assert (N.to_nat p < length l)%nat by (apply nth_error_Some; congruence). unfold len. lia.
Qed.
Lemma iter_beyond c size v l : forall k p, size * 8 < p -> (N.to_nat (len l - p) <= k)%nat ->
  exists fs, runs (iter_next c) (at_pos size v p l) fs Panicked /\ len fs <= len l - p.
Proof.
  induction k as [|k IH]; intros p H K; destruct (beyond_step c size v l p H) as [E|[f [E L]]].
  - exists []. split; [now constructor|unfold len; cbn; lia].
  - lia.
  - exists []. split; [now constructor|unfold len; cbn; lia].
  - destruct (IH (p + 1)) as [fs [R B]]; [lia|lia|]. exists (f :: fs). split; [econstructor; eassumption|].
    unfold len in *. cbn [length]. lia.
Qed.

(* texts *)
Lemma append_cancel a x y : (a ++ x = a ++ y)%string -> x = y.
Proof. induction a as [|d a IH]; cbn; intros E; [exact E|]. injection E. exact IH. Qed.
Lemma flag_debug_inj alt f g : position f < 2 ^ 64 -> position g < 2 ^ 64 -> Flag_debug alt f = Flag_debug alt g ->
  position f = position g /\ is_set f = is_set g.
Proof.
  intros F G E.
  destruct (show_dec_numeral (position f) (dec_room _ F)) as [NF _], (show_dec_numeral (position g) (dec_room _ G)) as [NG _].
  unfold Flag_debug in E. destruct alt.
  - do 5 apply append_cancel in E.
    assert (C : position f = position g /\ (if is_set f then "true" else "false")%string = (if is_set g then "true" else "false")%string).
    { eapply split_reads in E; try eassumption; try reflexivity. destruct E as [-> E]. split; [reflexivity|].
      destruct (is_set f), (is_set g); try reflexivity; discriminate. }
    destruct C as [P C]. split; [exact P|]. destruct (is_set f), (is_set g); try reflexivity; discriminate.
  - apply append_cancel in E. eapply split_reads in E; try eassumption; try reflexivity. destruct E as [-> E].
    split; [reflexivity|]. destruct (is_set f), (is_set g); try reflexivity; discriminate.
Qed.
Lemma flag_debug_texts f : position f < 2 ^ 64 -> exists n, numeral 10 n (position f) /\
  Flag_debug false f = ("Flag { position: Position(" ++ n ++ "), is_set: " ++ (if is_set f then "true" else "false") ++ " }")%string /\
  Flag_debug true f = ("Flag {" ++ newline ++ "    position: Position(" ++ newline ++ "        " ++ n ++ "," ++ newline ++
    "    )," ++ newline ++ "    is_set: " ++ (if is_set f then "true" else "false") ++ "," ++ newline ++ "}")%string.
Proof.
  intros H. exists (show_dec (position f)). split; [now apply show_dec_numeral, dec_room|]. split; reflexivity.
Qed.
Lemma flags_skipn v : forall k l p, skipn k (flags v p l) = flags v (p + N.of_nat k) (skipn k l).
Proof.
  induction k as [|k IH]; intros l p; [cbn [skipn]; f_equal; lia|]. destruct l as [|t l]; [reflexivity|].
  cbn [flags skipn]. rewrite IH. f_equal. lia.
Qed.
Lemma iter_resume c size v i l : size <= 16 -> size * 8 <= len l -> i <= size * 8 -> exists all it it',
  drains (iter_next c) (iter_new size v l) all it /\
  drains (iter_next c) {| it_size := size; it_value := v; it_index := i; it_layout := l |} (drop i all) it'.
Proof.
  intros H1 H2 H3. destruct (iter_all c size v l H1 H2) as [it [D _]], (iter_from c size v l i H1 H2 H3) as [it' [D' _]].
  exists (flags v 0 (take (size * 8) l)), it, it'. split; [exact D|].
  unfold drop at 1. rewrite flags_skipn. unfold take in *. rewrite N.add_0_l, N2Nat.id.
  rewrite skipn_firstn_comm. unfold drop in D'.
  replace (N.to_nat (size * 8) - N.to_nat i)%nat with (N.to_nat (size * 8 - i)) by lia. exact D'.
Qed.
