(* Lemmas about M_Cost. *)
From Coq Require Import String.
From Coq Require Import ZArith Lia ZifyBool ZifyNat ZifyN.
From Verif Require Import Base G_Enums M_Raw M_Entry M_Iter M_Cost Spec S_Iter S_Cost L_Base L_Strings L_Iter L_Decode L_Hash.
Local Open Scope N_scope.
Ltac Zify.zify_post_hook ::= Z.div_mod_to_equations.

Lemma nulnul_from_cons i a b r : find_nulnul_from i (a :: b :: r) =
  if (a =? 0) && (b =? 0) then Some (i + 1) else find_nulnul_from (i + 1) (b :: r).
Proof. reflexivity. Qed.
Lemma nulnul_counted_cons i a b r : find_nulnul_counted i (a :: b :: r) =
  if (a =? 0) && (b =? 0) then (Some (i + 1), 1)
  else let (t, n) := find_nulnul_counted (i + 1) (b :: r) in (t, 1 + n).
Proof. reflexivity. Qed.

Lemma nulnul_erase l : forall i, fst (find_nulnul_counted i l) = find_nulnul_from i l.
Proof.
  induction l as [|a l IH]; intros i; [reflexivity|]. destruct l as [|b r]; [reflexivity|].
  rewrite nulnul_counted_cons, nulnul_from_cons. destruct ((a =? 0) && (b =? 0)); [reflexivity|].
  rewrite <- IH. destruct (find_nulnul_counted (i + 1) (b :: r)). reflexivity.
Qed.
Lemma nulnul_count l : forall i,
  match find_nulnul_from i l with
  | Some t => i + snd (find_nulnul_counted i l) = t
  | None => snd (find_nulnul_counted i l) = len l
  end.
Proof.
  induction l as [|a l IH]; intros i; [reflexivity|]. destruct l as [|b r]; [reflexivity|].
  rewrite nulnul_counted_cons, nulnul_from_cons. destruct ((a =? 0) && (b =? 0)); [reflexivity|].
  specialize (IH (i + 1)). destruct (find_nulnul_counted (i + 1) (b :: r)) as [t n]. cbn [snd] in *.
  destruct (find_nulnul_from (i + 1) (b :: r)); [lia|]. unfold len in *. cbn [length] in *. lia.
Qed.

Lemma next_raw_erase c s : fst (next_raw_counted c s) = next_raw c s.
Proof.
  unfold next_raw_counted, next_raw. destruct (u_add c 32 (idx s) size_of_header) as [h| |]; cbn [obind]; try reflexivity.
  destruct (smbios_len_ s <? h); [reflexivity|].
  destruct (slice_index_from (buffer s) (idx s)) as [w| |]; cbn [obind]; try reflexivity.
  destruct (len w <? size_of_header); [reflexivity|]. cbv zeta.
  destruct (u_add c 32 (idx s) (at_ 1 1 w)) as [i| |]; cbn [obind]; try reflexivity.
  destruct (smbios_len_ s <=? i); [reflexivity|].
  destruct (slice_index_from (buffer s) i) as [t| |]; cbn [obind]; try reflexivity.
  unfold find_nulnul. rewrite <- nulnul_erase. destruct (find_nulnul_counted 0 t) as [o n]. cbn [fst]. reflexivity.
Qed.

Lemma nulnul_at_most l : snd (find_nulnul_counted 0 l) <= len l.
Proof.
  pose proof (nulnul_count l 0) as H. destruct (find_nulnul_from 0 l) as [t|] eqn:E; [|lia].
  apply find_nulnul_from_some in E. destruct E as [x [y [-> [-> _]]]]. rewrite !len_app. change (len [0; 0]) with 2. lia.
Qed.

(* what the turns are, case by case *)
Lemma turns_none c s : sane s -> smbios_len_ s < idx s + 4 -> turns c s = 0.
Proof.
  intros [_ [B _]] H. unfold turns, next_raw_counted, u_add, size_of_header.
  replace (idx s + 4 <? 2 ^ 32) with true by (symmetry; apply N.ltb_lt; lia).
  replace (smbios_len_ s <? idx s + 4) with true by (symmetry; lia). reflexivity.
Qed.
Lemma turns_at_most c s : sane s -> turns c s <= len (buffer s) - idx s.
Proof.
  intros [A [B C]]. unfold turns, next_raw_counted.
  destruct (u_add c 32 (idx s) size_of_header) as [h| |]; cbn [snd]; try lia.
  destruct (smbios_len_ s <? h); cbn [snd]; [lia|].
  destruct (slice_index_from (buffer s) (idx s)) as [w| |] eqn:W; cbn [snd]; try lia.
  destruct (len w <? size_of_header); cbn [snd]; [lia|]. cbv zeta.
  assert (L : at_ 1 1 w < 256).
  { unfold slice_index_from, slice_get_from in W. destruct (idx s <=? len (buffer s)); [|discriminate]. injection W as <-.
    apply (at_lt 1 1). now apply all_bytes_drop. }
  unfold u_add. replace (idx s + at_ 1 1 w <? 2 ^ 32) with true by (symmetry; apply N.ltb_lt; lia).
  destruct (smbios_len_ s <=? idx s + at_ 1 1 w); cbn [snd]; [lia|].
  unfold slice_index_from, slice_get_from. destruct (idx s + at_ 1 1 w <=? len (buffer s)) eqn:I; cbn [snd]; [|lia].
  pose proof (nulnul_at_most (drop (idx s + at_ 1 1 w) (buffer s))) as N.
  destruct (find_nulnul_counted 0 (drop (idx s + at_ 1 1 w) (buffer s))) as [o n]. cbn [snd] in *.
  rewrite len_drop in N. lia.
Qed.
Lemma turns_framed c s r : sane s -> framed (smbios_version s) (buffer s) (idx s) r ->
  idx s + 4 <= smbios_len_ s -> idx s + length_ r < smbios_len_ s ->
  turns c s + 1 = len (strings r).
Proof.
  intros [A [B C]] F H4 HL. destruct (framed_facts _ _ _ _ F) as [_ [L4 [HE [H2 [_ [SA [post D]]]]]]].
  destruct F as [pre [post' [kind [h0 [h1 [E [EL [LL _]]]]]]]].
  assert (W : drop (idx s) (buffer s) = [kind; length_ r; h0; h1] ++ (data r ++ strings r ++ post')).
  { rewrite E, <- EL. now apply drop_app_exact. }
  unfold extent in HE.
  assert (LB : length_ r < 256).
  { rewrite E in A. apply all_bytes_app in A. destruct A as [_ A]. inversion A as [|? ? _ A2]. inversion A2; assumption. }
  unfold turns, next_raw_counted, u_add, size_of_header.
  replace (idx s + 4 <? 2 ^ 32) with true by (symmetry; apply N.ltb_lt; lia).
  replace (smbios_len_ s <? idx s + 4) with false by (symmetry; lia).
  unfold slice_index_from, slice_get_from.
  replace (idx s <=? len (buffer s)) with true by (symmetry; lia).
  replace (len (drop (idx s) (buffer s)) <? 4) with false by (symmetry; rewrite len_drop; lia).
  rewrite W. cbv zeta.
  replace (at_ 1 1 ([kind; length_ r; h0; h1] ++ data r ++ strings r ++ post')) with (length_ r) by (symmetry; apply N.add_0_r).
  replace (idx s + length_ r <? 2 ^ 32) with true by (symmetry; apply N.ltb_lt; lia).
  replace (smbios_len_ s <=? idx s + length_ r) with false by (symmetry; lia).
  replace (idx s + length_ r <=? len (buffer s)) with true by (symmetry; lia).
  rewrite D. pose proof (nulnul_count (strings r ++ post) 0) as N.
  pose proof (find_nulnul_area (strings r) post SA) as Z. unfold find_nulnul in Z. rewrite Z in N.
  destruct (find_nulnul_counted 0 (strings r ++ post)) as [o n]. cbn [snd] in *. lia.
Qed.

(* the whole iteration *)
Lemma work_linear c s n : sane s -> work c s n -> n <= len (buffer s) - idx s.
Proof.
  intros S W. induction W as [s s' E|s E|s E|s x s' n E W IH].
  - now apply turns_at_most.
  - now apply turns_at_most.
  - now apply turns_at_most.
  - destruct (next_sane c s _ _ S E) as [S' B']. specialize (IH S'). rewrite B' in IH.
    destruct (next_framing c s x s' S E) as [H4 [[e [_ [_ ->]]]|[r [F [HL [_ [I _]]]]]]].
    + assert (n = 0).
      { assert (Z : next c (stopped_at (idx s) s) = Val (None, stopped_at (idx s) s))
          by (apply stopped_none; [exact S'|cbn; lia]).
        assert (T : turns c (stopped_at (idx s) s) = 0) by (apply turns_none; [exact S'|cbn; lia]).
        inversion W; subst; try congruence. }
      pose proof (turns_at_most c s S). lia.
    + pose proof (turns_framed c s r S F H4 HL) as T. destruct (framed_end _ _ F S) as [_ [_ HE]].
      unfold extent in *. lia.
Qed.
Lemma work_exists c s : sane s -> exists n, work c s n.
Proof.
  intros S. destruct (runs_exists c s S) as [l [e [R _]]]. clear S. induction R as [s s' E|s E|s E|s a s1 l e E R IH].
  - eexists. eapply work_end, E.
  - eexists. eapply work_panic, E.
  - eexists. eapply work_ub, E.
  - destruct IH as [n W]. eexists. eapply work_item; [exact E|exact W].
Qed.

(* strings *)
Lemma strings_next_erase s : fst (strings_next_counted s) = strings_next s.
Proof.
  unfold strings_next_counted, strings_next. destruct (slice_get_from (bytes s) (start s)); [|reflexivity].
  cbv zeta. destruct (until_nul l); reflexivity.
Qed.
Lemma strings_nth_erase n : forall s, fst (strings_nth_counted n s) = strings_nth n s.
Proof.
  induction n as [|n IH]; intros s; cbn [strings_nth_counted strings_nth]; rewrite <- strings_next_erase;
    destruct (strings_next_counted s) as [[o s'] k]; cbn [fst]; [reflexivity|].
  destruct o; [|reflexivity]. rewrite <- IH. destruct (strings_nth_counted n s'). reflexivity.
Qed.
Lemma find_string_erase r i : fst (find_string_counted r i) = find_string r i.
Proof.
  unfold find_string_counted, find_string. destruct (i =? 0); [reflexivity|].
  rewrite <- strings_nth_erase. destruct (strings_nth_counted _ _). reflexivity.
Qed.
Lemma until_nul_len l : len (until_nul l) <= len l.
Proof.
  induction l as [|b l IH]; [reflexivity|]. cbn [until_nul]. destruct (b =? 0); unfold len in *; cbn [length] in *; lia.
Qed.
(* one call: twice the way it goes forward, or twice the rest *)
Lemma strings_next_count s :
  snd (strings_next_counted s) <= 2 * (len (bytes s) - start s) /\
  bytes (snd (fst (strings_next_counted s))) = bytes s /\
  (fst (fst (strings_next_counted s)) <> None ->
   snd (strings_next_counted s) + 2 * (len (bytes s) - start (snd (fst (strings_next_counted s)))) <= 2 * (len (bytes s) - start s)).
Proof.
  unfold strings_next_counted, slice_get_from. destruct (start s <=? len (bytes s)) eqn:L; cbn [fst snd].
  2:{ split; [lia|]. split; [reflexivity|]. intros H. now contradiction H. }
  pose proof (until_nul_len (drop (start s) (bytes s))) as U. rewrite len_drop in *.
  destruct (until_nul (drop (start s) (bytes s))) as [|b t] eqn:E; cbn [fst snd].
  - split; [lia|]. split; [reflexivity|]. intros H. now contradiction H.
  - set (u := b :: t) in *. destruct (from_utf8 u); cbn [fst snd bytes start].
    + split; [lia|]. split; [reflexivity|]. intros _. lia.
    + split; [lia|]. split; [reflexivity|]. intros H. now contradiction H.
Qed.
Lemma strings_nth_count n : forall s, snd (strings_nth_counted n s) <= 2 * (len (bytes s) - start s).
Proof.
  induction n as [|n IH]; intros s; cbn [strings_nth_counted]; pose proof (strings_next_count s) as H;
    destruct (strings_next_counted s) as [[o s'] k]; cbn [fst snd] in *; destruct H as [H1 [H2 H3]]; [exact H1|].
  destruct o; [|exact H1]. specialize (IH s'). destruct (strings_nth_counted n s') as [t' k']. cbn [snd] in *.
  rewrite H2 in IH. specialize (H3 ltac:(discriminate)). lia.
Qed.
Lemma find_string_count r i : snd (find_string_counted r i) <= 2 * len (strings r).
Proof.
  unfold find_string_counted. destruct (i =? 0); [cbn [snd]; lia|].
  pose proof (strings_nth_count (N.to_nat (i - 1)) (raw_strings r)) as H.
  destruct (strings_nth_counted _ _). cbn [snd raw_strings strings_new bytes start] in *. lia.
Qed.

(* the search for an entry point *)
Lemma signature_erase cs : forall i, fst (find_signature_counted i cs) = find_signature_loop i cs.
Proof.
  induction cs as [|h cs IH]; intros i; [reflexivity|]. cbn [find_signature_counted find_signature_loop].
  destruct (starts_with h V2_SIG); [reflexivity|]. destruct (starts_with h V3_SIG); [reflexivity|].
  rewrite <- IH. destruct (find_signature_counted (i + 1) cs). reflexivity.
Qed.
Lemma signature_count cs : forall i, snd (find_signature_counted i cs) <= len cs.
Proof.
  induction cs as [|h cs IH]; intros i; [reflexivity|]. cbn [find_signature_counted].
  destruct (starts_with h V2_SIG); [unfold len; cbn [length snd]; lia|].
  destruct (starts_with h V3_SIG); [unfold len; cbn [length snd]; lia|].
  specialize (IH (i + 1)). destruct (find_signature_counted (i + 1) cs). unfold len in *. cbn [length snd] in *. lia.
Qed.
Lemma chunks_count : forall k (l : list N), (length l <= k)%nat -> 16 * len (chunks 16 l) <= len l + 15.
Proof.
  induction k as [|k IH]; intros l H.
  - destruct l; [cbn; lia|cbn in H; lia].
  - destruct l as [|b l']; [cbn; lia|]. rewrite chunks_step by (try discriminate; lia).
    specialize (IH (drop 16 (b :: l'))). rewrite len_drop in IH.
    assert (D : (length (drop 16 (b :: l')) <= k)%nat).
    { assert (L : len (drop 16 (b :: l')) = len (b :: l') - 16) by apply len_drop. unfold len in L. cbn [length] in *. lia. }
    specialize (IH D). replace (len (take 16 (b :: l') :: chunks 16 (drop 16 (b :: l')))) with (1 + len (chunks 16 (drop 16 (b :: l'))))
      by (unfold len; cbn [length]; lia).
    assert (1 <= len (b :: l')) by (unfold len; cbn [length]; lia).
    destruct (chunks 16 (drop 16 (b :: l'))) eqn:E; [cbn; lia|].
    destruct (N.leb_spec 16 (len (b :: l'))); [lia|].
    assert (Z : drop 16 (b :: l') = []) by (apply length_zero_iff_nil; assert (L : len (drop 16 (b :: l')) = len (b :: l') - 16) by apply len_drop; unfold len in *; lia).
    rewrite Z in E. rewrite chunks_nil in E. discriminate.
Qed.
Lemma signature_count_found cs : forall i k o, find_signature_loop i cs = Some (k, o) ->
  16 * (i + snd (find_signature_counted i cs)) = o + 16.
Proof.
  induction cs as [|h cs IH]; intros i k o; [discriminate|]. cbn [find_signature_counted find_signature_loop].
  destruct (starts_with h V2_SIG); [intros [= <- <-]; cbn [snd]; unfold STRIDE; lia|].
  destruct (starts_with h V3_SIG); [intros [= <- <-]; cbn [snd]; unfold STRIDE; lia|].
  intros H. specialize (IH _ _ _ H). destruct (find_signature_counted (i + 1) cs). cbn [snd] in *. lia.
Qed.
Lemma signature_count_none cs : forall i, find_signature_loop i cs = None -> snd (find_signature_counted i cs) = len cs.
Proof.
  induction cs as [|h cs IH]; intros i; [reflexivity|]. cbn [find_signature_counted find_signature_loop].
  destruct (starts_with h V2_SIG); [discriminate|]. destruct (starts_with h V3_SIG); [discriminate|].
  intros H. specialize (IH _ H). destruct (find_signature_counted (i + 1) cs). unfold len in *. cbn [snd length] in *. lia.
Qed.
Lemma chunks_enough : forall k (l : list N), (length l <= k)%nat -> len l <= 16 * len (chunks 16 l).
Proof.
  induction k as [|k IH]; intros l H.
  - destruct l; [cbn; lia|cbn in H; lia].
  - destruct l as [|b l']; [cbn; lia|]. rewrite chunks_step by (try discriminate; lia).
    specialize (IH (drop 16 (b :: l'))). rewrite len_drop in IH.
    assert (D : (length (drop 16 (b :: l')) <= k)%nat).
    { assert (L : len (drop 16 (b :: l')) = len (b :: l') - 16) by apply len_drop. unfold len in L. cbn [length] in *. lia. }
    specialize (IH D). replace (len (take 16 (b :: l') :: chunks 16 (drop 16 (b :: l')))) with (1 + len (chunks 16 (drop 16 (b :: l'))))
      by (unfold len; cbn [length]; lia). lia.
Qed.

(* a string that is there *)
Lemma strings_next_good s t tl : rest s = t ++ 0 :: tl -> good_string t ->
  strings_next_counted s = ((Some t, advance s (len t + 1)), 2 * len t + 1).
Proof.
  intros E G. pose proof (next_good s t (0 :: tl) E G ltac:(right; eauto)) as H.
  rewrite <- strings_next_erase in H. revert H. unfold strings_next_counted.
  destruct (slice_get_from (bytes s) (start s)) as [r|] eqn:F; [|discriminate].
  assert (R : r = rest s). { unfold slice_get_from in F. destruct (start s <=? len (bytes s)); [|discriminate]. injection F as <-. reflexivity. }
  rewrite R, E. cbv zeta. assert (U : until_nul (t ++ 0 :: tl) = t).
  { destruct G as [_ [N0 _]]. clear -N0. induction t as [|b t IH]; [reflexivity|]. cbn [app until_nul].
    destruct (N.eqb_spec b 0) as [->|]; [exfalso; apply N0; now left|]. f_equal. apply IH. intros I. apply N0. now right. }
  rewrite U. destruct t as [|b t]; [destruct G as [G _]; congruence|]. set (u := b :: t) in *.
  destruct (from_utf8 u); cbn [fst]; [|discriminate]. intros HS. rewrite HS. f_equal. lens. lia.
Qed.
Lemma strings_nth_good before : forall s t tl, Forall good_string before -> good_string t ->
  rest s = terminated before ++ t ++ 0 :: tl ->
  snd (strings_nth_counted (length before) s) + (len before + 1) = 2 * (len (terminated before) + (len t + 1)).
Proof.
  induction before as [|u before IH]; intros s t tl F G E.
  - cbn [length strings_nth_counted]. rewrite (strings_next_good s t tl E G). cbn [snd]. change (len (terminated [])) with 0.
    change (len (@nil text)) with 0. lia.
  - inversion F as [|? ? G1 F1]; subst. rewrite terminated_cons, <- app_assoc in E. cbn [app] in E.
    cbn [length strings_nth_counted]. rewrite (strings_next_good s u _ E G1).
    specialize (IH (advance s (len u + 1)) t tl F1 G).
    rewrite rest_advance, E, ends_drop in IH by (right; eauto). specialize (IH eq_refl).
    destruct (strings_nth_counted (length before) (advance s (len u + 1))) as [o k]. cbn [snd] in *.
    rewrite terminated_cons. replace (len (u :: before)) with (1 + len before) by (unfold len; cbn [length]; lia). lens. lia.
Qed.
Lemma find_string_exactly r before t tl : Forall good_string before -> good_string t ->
  strings r = terminated before ++ t ++ 0 :: tl ->
  snd (find_string_counted r (len before + 1)) + (len before + 1) = 2 * (len (terminated before) + (len t + 1)).
Proof.
  intros F G E. unfold find_string_counted. replace (len before + 1 =? 0) with false by lia.
  replace (N.to_nat (len before + 1 - 1)) with (length before) by (unfold len; lia).
  pose proof (strings_nth_good before (raw_strings r) t tl F G) as H. unfold raw_strings in *. rewrite rest_new in H.
  specialize (H E). destruct (strings_nth_counted _ _). exact H.
Qed.
