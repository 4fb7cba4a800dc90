(* Lemmas for C89: buffers that lack their last bytes. *)
From Coq Require Import ZArith Lia ZifyBool ZifyNat ZifyN.
From Verif Require Import Base G_Enums M_Raw M_Iter Spec S_Iter S_Cut L_Base L_Iter L_After L_Frame S_Local L_Local.
Local Open Scope N_scope.

Lemma cut_area a j : string_area a -> j < len a -> no_double_nul (take j a).
Proof.
  intros [_ A] H x y E. pose proof (take_drop j a) as T. rewrite E, <- !app_assoc in T.
  symmetry in T. pose proof (A x (y ++ drop j a) T) as N.
  apply app_eq_nil in N. destruct N as [_ N]. apply (f_equal len) in N. rewrite len_drop in N. cbn in N. lia.
Qed.

Lemma sane_cut m s : sane s -> sane (cut_to m s).
Proof.
  intros [H1 [H2 H3]]. split; [apply all_bytes_take; exact H1|]. split; [exact H2|]. cbn [cut_to buffer]. rewrite len_take. lia.
Qed.

(* the call that comes to the structure with the cut *)
Lemma next_cut c s m r : sane s -> here s r -> idx s <= m < idx s + extent r ->
  (m < idx s + 4 -> next c (cut_to m s) = UB) /\
  (idx s + 4 <= m < idx s + length_ r -> next c (cut_to m s) = Panic) /\
  (idx s + length_ r <= m -> next c (cut_to m s) = Val (Some (Err (UnterminatedStrings (idx s))), stopped_at (idx s) (cut_to m s))).
Proof.
  intros HS [F [H1 H2]] [M1 M2]. pose proof (sane_cut m s HS) as HT.
  pose proof (framed_facts _ _ _ _ F) as [_ [HL [HE [HA [_ [SA [post' ED]]]]]]].
  assert (LB : len (buffer (cut_to m s)) = m) by (cbn [cut_to buffer]; rewrite len_take; lia).
  destruct F as [pre [post [kind [h0 [h1 [EB [EP _]]]]]]].
  assert (HD : idx s + 4 <= m -> buffer (cut_to m s) = pre ++ [kind; length_ r; h0; h1] ++ take (m - (idx s + 4)) (data r ++ strings r ++ post)).
  { intros Q. cbn [cut_to buffer]. rewrite EB. rewrite take_app_ge by lia. f_equal.
    rewrite take_app_ge by (change (len [kind; length_ r; h0; h1]) with 4; lia). f_equal. f_equal.
    change (len [kind; length_ r; h0; h1]) with 4. lia. }
  split; [|split].
  - intros Q. apply next_iff; [exact HT|]. apply header_past_buffer; cbn [cut_to idx smbios_len_]; [exact H1|].
    change (take m (buffer s)) with (buffer (cut_to m s)). rewrite LB. lia.
  - intros Q. apply next_iff; [exact HT|].
    apply (length_past_buffer c (cut_to m s) pre _ kind (length_ r) h0 h1 (HD ltac:(lia))); cbn [cut_to idx smbios_len_]; try assumption.
    change (take m (buffer s)) with (buffer (cut_to m s)). rewrite LB. lia.
  - intros Q. apply next_iff; [exact HT|].
    apply (strings_not_terminated c (cut_to m s) pre _ kind (length_ r) h0 h1 (HD ltac:(lia))); cbn [cut_to idx smbios_len_]; try assumption.
    + change (take m (buffer s)) with (buffer (cut_to m s)). rewrite LB. exact Q.
    + change (no_double_nul (drop (idx s + length_ r) (take m (buffer s)))). rewrite drop_take, ED. rewrite take_app_le by (unfold extent in M2; lia).
      apply cut_area; [exact SA|]. unfold extent in M2. lia.
Qed.

Lemma cut_short c s m l1 s1 r : flat_memory c = false -> sane s -> m <= len (buffer s) ->
  reaches (next c) s l1 s1 -> here s1 r -> idx s1 <= m < idx s1 + extent r ->
  exists l1', map seen l1' = map seen l1 /\
    (m < idx s1 + 4 -> runs (next c) (cut_to m s) l1' Undefined) /\
    (idx s1 + 4 <= m < idx s1 + length_ r -> runs (next c) (cut_to m s) l1' Panicked) /\
    (idx s1 + length_ r <= m ->
       exists t, runs (next c) (cut_to m s) (l1' ++ [Err (UnterminatedStrings (idx s1))]) (Exhausted t)).
Proof.
  intros HF HS HM R HR HI. pose proof (sane_cut m s HS) as HT.
  destruct (reaches_sane c s l1 s1 R HS) as [HS1 _].
  destruct (not_stopped c s l1 s1 R HS (proj1 (proj2 HR))) as [EL [HG EV]].
  assert (HA : agree m s (cut_to m s)).
  { unfold agree. cbn [cut_to smbios_version idx smbios_len_ buffer]. rewrite len_take, take_take, N.min_id.
    repeat (split; [reflexivity||lia|]). reflexivity. }
  destruct (reaches_agree c m s l1 s1 HF R (cut_to m s) HS HT HA EL HG ltac:(lia)) as [l1' [R' [EM ES]]].
  exists l1'. split; [exact EM|].
  assert (EC : moved_to (idx s1) (cut_to m s) = cut_to m s1) by (rewrite ES at 2; reflexivity). rewrite EC in R'.
  destruct (next_cut c s1 m r HS1 HR HI) as [K1 [K2 K3]].
  split; [|split].
  - intros Q. rewrite <- (app_nil_r l1'). apply (reaches_runs _ _ _ _ _ _ R'). apply runs_ub. exact (K1 Q).
  - intros Q. rewrite <- (app_nil_r l1'). apply (reaches_runs _ _ _ _ _ _ R'). apply runs_panic. exact (K2 Q).
  - intros Q. eexists. apply (reaches_runs _ _ _ _ _ _ R'). apply (runs_some _ _ _ _ _ _ (K3 Q)). apply runs_none.
    apply stopped_none; [apply sane_stopped; [exact (sane_cut m s1 HS1)|apply HS1]|cbn [stopped_at idx smbios_len_]; lia].
Qed.

(* structures that end before the cut *)
Lemma reaches_uncut c m s l s' : flat_memory c = false -> reaches (next c) s l s' -> forall t, sane s -> sane t -> agree m s t ->
  (forall e, In (Err e) l -> ~ framing_error e) -> idx s' <= m ->
  exists l' t', reaches (next c) t l' t' /\ map seen l' = map seen l /\ idx t' = idx s'.
Proof.
  intros HF R. induction R as [s|s a s1 l s' E R IH]; intros t HS HT HA NE HI.
  - exists [], t. split; [apply reaches_here|]. split; [reflexivity|]. symmetry. apply HA.
  - destruct (next_sane c _ _ _ HS E) as [HS1 _]. pose proof (reaches_onwards c _ _ _ R HS1) as HO.
    destruct HA as [AV [AI [AL [AB [AB' AT]]]]].
    destruct (next_item c s a s1 HS E) as [[e [Ee [FE _]]]|[r [[F [H1 H2]] [D ES]]]];
      [destruct (NE e (or_introl Ee) FE)|].
    assert (HP : idx s + extent r <= m) by (subst s1; destruct (_ && _); cbn [stopped_at moved_to idx] in HO; lia).
    destruct (framed_agree _ _ (buffer t) _ _ m F HP AB AB' AT) as [r' [F' B]].
    destruct (bare_facts r r' B) as [BL [BI BE]].
    pose proof (dispatch_same c r' r HF B) as DS. rewrite D in DS. cbn [omap obind] in DS.
    destruct (dispatch c r') as [x'| |] eqn:D'; try discriminate DS. cbn in DS. injection DS as DS.
    rewrite AV, AI in F'.
    assert (E' : next c t = Val (Some x', if (3 <=? major (smbios_version t)) && is_end (info r)
       then stopped_at (idx s + extent r) t else moved_to (idx s + extent r) t)).
    { rewrite (next_framed c t r' HT F'); [|rewrite ?BL; lia..]. rewrite D'. cbn [obind]. rewrite BI, BE, <- AI. reflexivity. }
    destruct (next_sane c _ _ _ HT E') as [HT1 _].
    destruct (IH _ HS1 HT1) as [l' [t' [R' [EM EI]]]].
    + subst s1. rewrite AV. clear E E' R HO HS1 HT1. destruct ((3 <=? major (smbios_version t)) && is_end (info r)); unfold agree; cbn [stopped_at moved_to smbios_version idx smbios_len_ buffer]; 
        do 5 (split; [first [exact AV|reflexivity|exact AB|exact AB'|lia]|]); exact AT.
    + intros e I. apply NE. right. exact I.
    + exact HI.
    + exists (x' :: l'), t'. split; [eapply reaches_on; [exact E'|exact R']|]. split; [cbn [map]; rewrite DS, EM; reflexivity|exact EI].
Qed.

Lemma uncut c s m l1 s1 : flat_memory c = false -> sane s -> m <= len (buffer s) ->
  reaches (next c) s l1 s1 -> (forall e, In (Err e) l1 -> ~ framing_error e) -> idx s1 <= m ->
  exists l1' t, reaches (next c) (cut_to m s) l1' t /\ map seen l1' = map seen l1 /\ idx t = idx s1.
Proof.
  intros HF HS HM R NE HI. apply (reaches_uncut c m s l1 s1 HF R (cut_to m s) HS (sane_cut m s HS)); [|exact NE|exact HI].
  unfold agree. cbn [cut_to smbios_version idx smbios_len_ buffer]. rewrite len_take, take_take, N.min_id.
  repeat (split; [reflexivity||lia|]). reflexivity.
Qed.
