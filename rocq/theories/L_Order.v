From Coq Require Import ZArith Lia ZifyBool ZifyNat ZifyN Permutation.
From Verif Require Import Base G_Enums M_Raw M_Entry M_Iter Spec S_Iter S_Table S_Order L_Base L_Iter L_After L_Table.
Local Open Scope N_scope.

Section Order.
Variables (c : cfg) (v : SmbiosVersion).
Hypothesis strict : flat_memory c = false.

Lemma dispatch_alone s tl i : omap seen (dispatch c (raw_of v s tl)) = Val i <-> omap seen (dispatch c (raw_of v s [])) = Val i.
Proof. rewrite (dispatch_same c (raw_of v s tl) (raw_of v s []) strict eq_refl). reflexivity. Qed.

Lemma alone_iff s i : encodable_ok s -> all_bytes (encode s) -> len (encode s) + 260 <= 2 ^ 32 ->
  (gives_alone c v s i <-> omap seen (dispatch c (raw_of v s [])) = Val (seen i)).
Proof.
  intros HO HB HS.
  assert (HN : next c (only v s) = obind (dispatch c (raw_of v s [])) (fun x => Val (Some x,
    if (3 <=? major v) && (e_type s =? 127) then stopped_at (len (encode s)) (only v s)
    else {| smbios_version := v; smbios_len_ := len (encode s); idx := len (encode s); buffer := encode s ++ table [] ++ [] |}))).
  { pose proof (next_encoded c v [] s [] [] (len (encode s)) HO) as H.
    assert (T : table [s] ++ [] = encode s) by (unfold table; cbn [map concat]; rewrite !app_nil_r; reflexivity).
    cbn [app] in H. rewrite T in H. apply H; [change (len (@nil N)) with 0; lia|].
    split; [exact HB|]. split; [cbn; lia|exact HS]. }
  unfold gives_alone. rewrite HN. destruct (dispatch c (raw_of v s [])) as [x| |]; cbn [obind omap]; split.
  - intros [y [s1 [[= -> _] H]]]. rewrite H. reflexivity.
  - intros [= H]. exists x. eexists. split; [reflexivity|exact H].
  - intros [y [s1 [H _]]]. discriminate.
  - discriminate.
  - intros [y [s1 [H _]]]. discriminate.
  - discriminate.
Qed.

Let by_itself s i := omap seen (dispatch c (raw_of v s [])) = Val (seen i).

Lemma no_end_cons s ss : no_end v (s :: ss) -> ((3 <=? major v) && (e_type s =? 127)) = false /\ no_end v ss.
Proof.
  intros HE. split.
  - destruct ((3 <=? major v) && (e_type s =? 127)) eqn:E; [|reflexivity].
    assert (H : Forall (fun s => e_type s <> 127) (s :: ss)) by (apply HE; lia). inversion H; subst. lia.
  - intros H. specialize (HE H). inversion HE; assumption.
Qed.
Lemma finished_each rest : forall ss l, no_end v ss -> decode_all c (shown v ss rest) l Finished -> Forall2 by_itself ss l.
Proof.
  induction ss as [|s ss IH]; intros l HE D; cbn [shown] in D; inversion D as [|? ? x l' ? E D'| |]; subst; constructor.
  - apply (dispatch_alone s (table ss ++ rest)). rewrite E. reflexivity.
  - destruct (no_end_cons s ss HE) as [H1 H2]. rewrite H1 in D'. exact (IH l' H2 D').
Qed.
Lemma each_finished rest : forall ss items, no_end v ss -> Forall2 by_itself ss items ->
  exists l, decode_all c (shown v ss rest) l Finished /\ map seen l = map seen items.
Proof.
  intros ss items HE F. induction F as [|s i ss items H F IH]; cbn [shown]; [exists []; split; constructor|].
  destruct (no_end_cons s ss HE) as [H1 H2]. destruct (IH H2) as [l [D E]].
  apply (dispatch_alone s (table ss ++ rest)) in H. destruct (dispatch c (raw_of v s (table ss ++ rest))) as [x| |] eqn:ED; try discriminate.
  injection H as H. exists (x :: l). split; [|cbn [map]; rewrite H, E; reflexivity]. rewrite H1. econstructor; eassumption.
Qed.
End Order.

Lemma each_alone c v ss items : flat_memory c = false -> Forall encodable_ok ss -> all_bytes (table ss) -> len (table ss) + 260 <= 2 ^ 32 ->
  (Forall2 (gives_alone c v) ss items <-> Forall2 (fun s i => omap seen (dispatch c (raw_of v s [])) = Val (seen i)) ss items).
Proof.
  intros HF HO HB HS.
  assert (HA : Forall (fun s => encodable_ok s /\ all_bytes (encode s) /\ len (encode s) + 260 <= 2 ^ 32) ss).
  { induction HO as [|s ss H HO IH]; [constructor|]. rewrite table_cons in HB, HS. rewrite len_app in HS. apply all_bytes_app in HB. destruct HB as [B1 B2].
    constructor; [split; [exact H|split; [exact B1|lia]]|apply IH; [exact B2|lia]]. }
  clear HO HB HS. split; intros F; induction F as [|s i ss items H F IH]; constructor.
  - inversion HA as [|? ? [A1 [A2 A3]] _]; subst. apply (alone_iff c v s i A1 A2 A3). exact H.
  - apply IH. inversion HA; assumption.
  - inversion HA as [|? ? [A1 [A2 A3]] _]; subst. apply (alone_iff c v s i A1 A2 A3). exact H.
  - apply IH. inversion HA; assumption.
Qed.

Lemma table_by_itself c e ss rest items : flat_memory c = false ->
  Forall encodable_ok ss -> no_end (ep_to_version e) ss -> ep_smbios_len e = len (table ss) ->
  all_bytes (table ss ++ rest) -> len (table ss ++ rest) + 260 <= 2 ^ 32 ->
  ((exists l s', drains (next c) (structures e (table ss ++ rest)) l s' /\ map seen l = map seen items) <->
   Forall2 (gives_alone c (ep_to_version e)) ss items).
Proof.
  intros HF HO HE HL HB HS. set (v := ep_to_version e) in *.
  assert (HT : all_bytes (table ss)) by (apply all_bytes_app in HB; apply HB).
  assert (HT2 : len (table ss) + 260 <= 2 ^ 32) by (rewrite len_app in HS; lia).
  rewrite (each_alone c v ss items HF HO HT HT2).
  assert (HA : announces v (ep_smbios_len e) ss) by (left; lia). split.
  - intros [l [s' [D E]]]. destruct (decode_all_total c (shown v ss rest)) as [l0 [f D0]].
    destruct (runs_announced c e ss rest l0 f HO HA HB HS D0) as [en [R EF]]. apply drains_runs in D.
    destruct (runs_fun _ _ _ _ _ _ R D) as [-> ->]. cbn [finish_of] in EF. subst f.
    pose proof (finished_each c v HF rest ss l HE D0) as F. clear -F E. revert items E.
    induction F as [|s i ss l H F IH]; intros [|j items] E; try discriminate; constructor; injection E as E1 E2.
    + rewrite H, E1. reflexivity.
    + exact (IH items E2).
  - intros F. destruct (each_finished c v HF rest ss items HE F) as [l [D E]].
    destruct (runs_announced c e ss rest l Finished HO HA HB HS D) as [en [R EF]]. destruct en as [s'| |]; try discriminate.
    exists l, s'. split; [apply drains_runs; exact R|exact E].
Qed.

Lemma alone_seen c v s i j : gives_alone c v s i -> gives_alone c v s j -> seen i = seen j.
Proof. intros [x [s1 [H E]]] [y [s2 [H' E']]]. rewrite H in H'. injection H' as -> _. congruence. Qed.

Lemma permuted_alone c v ss ss' items : Permutation ss ss' -> Forall2 (gives_alone c v) ss items ->
  exists items', Permutation items items' /\ Forall2 (gives_alone c v) ss' items'.
Proof.
  intros P. revert items. induction P as [|s ss ss' P IH|a b ss|ss ss1 ss2 P1 IH1 P2 IH2]; intros items F.
  - exists items. split; [apply Permutation_refl|exact F].
  - inversion F as [|? i ? items0 H F']; subst. destruct (IH items0 F') as [items' [Q G]]. exists (i :: items').
    split; [constructor; exact Q|constructor; assumption].
  - inversion F as [|? i ? items0 H F']; subst. inversion F' as [|? j ? items1 H' F'']; subst.
    exists (j :: i :: items1). split; [apply perm_swap|repeat constructor; assumption].
  - destruct (IH1 items F) as [items1 [Q1 G1]]. destruct (IH2 items1 G1) as [items2 [Q2 G2]]. exists items2.
    split; [exact (Permutation_trans Q1 Q2)|exact G2].
Qed.

Lemma table_perm ss ss' : Permutation ss ss' -> Permutation (table ss) (table ss').
Proof.
  induction 1 as [|s ss ss' P IH|a b ss|ss ss1 ss2 P1 IH1 P2 IH2]; unfold table in *; cbn [map concat] in *.
  - apply Permutation_refl.
  - apply Permutation_app_head. exact IH.
  - rewrite !app_assoc. apply Permutation_app_tail, Permutation_app_comm.
  - exact (Permutation_trans IH1 IH2).
Qed.
Lemma table_perm_len ss ss' : Permutation ss ss' -> len (table ss) = len (table ss').
Proof. intros P. unfold len. rewrite (Permutation_length (table_perm ss ss' P)). reflexivity. Qed.
Lemma no_end_sub v ss ss' : (forall s, In s ss' -> In s ss) -> no_end v ss -> no_end v ss'.
Proof. intros H HE H3. specialize (HE H3). rewrite Forall_forall in *. intros s I. exact (HE s (H s I)). Qed.
