(* Proofs for types 7 and 8. *)
From Coq Require Import ZArith Lia ZifyBool ZifyNat ZifyN.
From Verif Require Import Base G_Enums M_Raw M_Processor M_Cache M_PortConnector M_SystemSlots.
From Verif Require Import Spec S_Enums S_Decode S_Hardware L_Base L_Strings L_Enums L_Decode L_Hardware.
Local Open Scope N_scope.
Ltac Zify.zify_post_hook ::= Z.div_mod_to_equations.

Lemma shiftr_land w m k : N.shiftr (N.land w m) k = N.land (N.shiftr w k) (N.shiftr m k).
Proof. apply N.shiftr_land. Qed.

Lemma bits_of w k n m : m = N.shiftl (N.ones n) k -> N.shiftr (N.land w m) k = w / 2 ^ k mod 2 ^ n.
Proof.
  intros ->. rewrite shiftr_land, N.shiftr_shiftl_l, N.sub_diag by reflexivity.
  rewrite N.shiftl_0_r, N.land_ones, N.shiftr_div_pow2. reflexivity.
Qed.
Lemma bit_of w k m : m = N.shiftl 1 k -> (N.shiftr (N.land w m) k =? 1) = N.testbit w k.
Proof.
  intros ->. rewrite (bits_of w k 1) by reflexivity. change (2 ^ 1) with 2.
  pose proof (N.testbit_spec' w k) as H. destruct (N.testbit w k); cbn [N.b2n] in H; rewrite <- H; reflexivity.
Qed.

Lemma low_bits w n : N.land w (N.ones n) = w mod 2 ^ n.
Proof. apply N.land_ones. Qed.

Lemma named_below {A} (codes : list (N * A)) n k :
  forallb (fun k => match named codes k with Some _ => true | None => false end) (below n) = true ->
  k < N.of_nat n -> exists x, named codes k = Some x.
Proof.
  intros H HK. rewrite forallb_forall in H. specialize (H k (below_in n k HK)).
  destruct (named codes k); [eauto|discriminate].
Qed.

Lemma configuration_total w : exists x, CacheConfiguration_from w = Val x.
Proof.
  unfold CacheConfiguration_from. rewrite CacheLevel_from_named, CacheLocation_from_named, CacheOperationalMode_from_named.
  rewrite (bits_of w 5 2), (bits_of w 8 2) by reflexivity. change 7 with (N.ones 3). rewrite low_bits.
  destruct (named_below CacheLevel_codes 8 (w mod 2 ^ 3)) as [a ->]; [reflexivity|apply N.mod_lt; discriminate|].
  destruct (named_below CacheLocation_codes 4 (w / 2 ^ 5 mod 2 ^ 2)) as [b ->]; [reflexivity|apply N.mod_lt; discriminate|].
  destruct (named_below CacheOperationalMode_codes 4 (w / 2 ^ 8 mod 2 ^ 2)) as [d ->]; [reflexivity|apply N.mod_lt; discriminate|].
  cbn [obind]. eauto.
Qed.

Lemma configuration_from w x : CacheConfiguration_from w = Val x <-> configuration_means w x.
Proof.
  unfold CacheConfiguration_from, configuration_means.
  rewrite CacheLevel_from_named, CacheLocation_from_named, CacheOperationalMode_from_named.
  rewrite (bits_of w 5 2), (bits_of w 8 2) by reflexivity. change 7 with (N.ones 3) at 1. rewrite low_bits.
  rewrite (bit_of w 3), (bit_of w 7) by reflexivity.
  change (2 ^ 3) with 8. change (2 ^ 5) with 32. change (2 ^ 8) with 256. change (2 ^ 2) with 4.
  destruct (named CacheLevel_codes (w mod 8)); cbn [obind]; [|split; [discriminate|intros [? _]; discriminate]].
  destruct (named CacheLocation_codes (w / 32 mod 4)); cbn [obind]; [|split; [discriminate|intros [_ [_ [? _]]]; discriminate]].
  destruct (named CacheOperationalMode_codes (w / 256 mod 4)); cbn [obind]; [|split; [discriminate|intros [_ [_ [_ [_ ?]]]]; discriminate]].
  split.
  - intros [= <-]. cbn. auto.
  - destruct x as [x1 x2 x3 x4 x5]. cbn. intros [[= ->] [-> [[= ->] [-> [= ->]]]]]. reflexivity.
Qed.

Lemma land_pow2 w k : w < 2 ^ (k + 1) -> (N.land w (2 ^ k) =? 0) = (w <? 2 ^ k).
Proof.
  intros H. destruct (N.ltb_spec w (2 ^ k)) as [L|L].
  - apply N.eqb_eq. apply N.bits_inj. intros i. rewrite N.land_spec, N.pow2_bits_eqb, N.bits_0.
    destruct (N.eqb_spec k i) as [->|]; [|apply andb_false_r].
    rewrite andb_true_r. destruct (N.eq_dec w 0) as [->|Z]; [apply N.bits_0|].
    apply N.bits_above_log2. apply N.log2_lt_pow2; lia.
  - apply N.eqb_neq. intros E. assert (T : N.testbit (N.land w (2 ^ k)) k = false) by (rewrite E; apply N.bits_0).
    rewrite N.land_spec, N.pow2_bits_true, andb_true_r in T.
    assert (N.log2 w = k) as LK.
    { apply N.log2_unique; [lia|]. rewrite N.add_1_r in H. split; assumption. }
    pose proof (N.bit_log2 w) as BL. rewrite LK in BL.
    assert (w <> 0) as NZ by (intros ->; pose proof (N.pow_nonzero 2 k); lia). rewrite BL in T by exact NZ. discriminate.
Qed.
Lemma high_low w k : 2 ^ k <= w < 2 ^ (k + 1) -> w mod 2 ^ k = w - 2 ^ k.
Proof.
  intros [H1 H2]. rewrite N.pow_add_r in H2. change (2 ^ 1) with 2 in H2.
  symmetry. apply (N.mod_unique w (2 ^ k) 1); lia.
Qed.

Lemma CacheSize_from_means w : w < 65536 -> CacheSize_from w = size_means w.
Proof.
  intros H. unfold CacheSize_from, size_means.
  change 0x8000 with (2 ^ 15). rewrite land_pow2 by exact H.
  change 0x7FFF with (N.ones 15). rewrite low_bits.
  destruct (N.ltb_spec w (2 ^ 15)).
  - rewrite N.mod_small by assumption. reflexivity.
  - rewrite high_low by (split; assumption). reflexivity.
Qed.
Lemma CacheSize2_from_means w : w < 2 ^ 32 -> CacheSize2_from w = size2_means w.
Proof.
  intros H. unfold CacheSize2_from, size2_means.
  change 0x80000000 with (2 ^ 31). rewrite land_pow2 by exact H.
  change 0x7FFFFFFF with (N.ones 31). rewrite low_bits.
  destruct (N.ltb_spec w (2 ^ 31)).
  - rewrite N.mod_small by assumption. reflexivity.
  - rewrite high_low by (split; assumption). reflexivity.
Qed.

Lemma size_bytes c w : w < 65536 ->
  CacheSize_bytes c (CacheSize_from w) = Val (if w <? 0x8000 then w * 1024 else (w - 0x8000) * 65536).
Proof.
  intros H. rewrite CacheSize_from_means by exact H. unfold size_means.
  destruct (N.ltb_spec w 0x8000); cbn [CacheSize_bytes]; unfold u_mul; change (2 ^ 64) with 18446744073709551616;
    change (2 ^ 10) with 1024; change (2 ^ 16) with 65536.
  - destruct (N.ltb_spec (w * 1024) 18446744073709551616); [reflexivity|lia].
  - destruct (N.ltb_spec ((w - 0x8000) * 65536) 18446744073709551616); [reflexivity|lia].
Qed.
Lemma size2_bytes c w : w < 2 ^ 32 ->
  CacheSize2_bytes c (CacheSize2_from w) = Val (if w <? 0x80000000 then w * 1024 else (w - 0x80000000) * 65536).
Proof.
  intros H. rewrite CacheSize2_from_means by exact H. unfold size2_means. change (2 ^ 32) with 4294967296 in H.
  destruct (N.ltb_spec w 0x80000000); cbn [CacheSize2_bytes]; unfold u_mul; change (2 ^ 64) with 18446744073709551616;
    change (2 ^ 10) with 1024; change (2 ^ 16) with 65536.
  - destruct (N.ltb_spec (w * 1024) 18446744073709551616); [reflexivity|lia].
  - destruct (N.ltb_spec ((w - 0x80000000) * 65536) 18446744073709551616); [reflexivity|lia].
Qed.

Arguments CacheSize_from : simpl never.
Arguments CacheSize2_from : simpl never.
Arguments size_means : simpl never.
Arguments size2_means : simpl never.
Arguments configuration_means : simpl never.
Arguments CacheConfiguration_from : simpl never.

Lemma Cache_ok c r s : all_bytes (data r) -> from_version (version r) 2 1 -> Cache_area (version r) <= len (data r) ->
  (Cache_try_from c r = Val (Ok s) <-> Cache_says r s).
Proof.
  intros HB HV HL. unfold Cache_try_from, Cache_area in *.
  pose proof (at_lt 3 2 _ HB) as B3. pose proof (at_lt 5 2 _ HB) as B5. change (256 ^ 2) with 65536 in *.
  pose proof (at_lt 15 4 _ HB) as B15. pose proof (at_lt 19 4 _ HB) as B19. change (256 ^ 4) with (2 ^ 32) in *.
  sinces; versions; try vlia; rewrite read_packed_in by vlia; cbn [obind]; rewrite !at_take by vlia;
  rewrite (CacheSize_from_means _ B3), (CacheSize_from_means _ B5), ?(CacheSize2_from_means _ B15), ?(CacheSize2_from_means _ B19);
  rewrite ?CacheErrorCorrectionType_from_meaning, ?SystemCacheType_from_meaning, ?CacheAssociativity_from_meaning;
  (destruct (configuration_total (at_ 1 2 (data r))) as [x X]; rewrite X; cbn [obind];
   split;
   [says_fwd; first [reflexivity
     |eexists; split; [apply field_is_iff; [vlia|vlia|reflexivity]|apply configuration_from; exact X]]
   |destruct s; says_bwd;
    match goal with H : exists w, _ |- _ => destruct H as [? [F G]] end;
    apply field_is_iff in F; [|vlia|vlia]; subs; subst; apply configuration_from in G; rewrite X in G; injection G as ->; reflexivity]).
Qed.

Lemma Cache_err c r e : from_version (version r) 2 1 -> Cache_area (version r) <= len (data r) ->
  (Cache_try_from c r = Val (Err e) <-> first_bad_text r [0x04] e).
Proof.
  intros HV HL. unfold Cache_try_from, Cache_area in *.
  destruct (configuration_total (at_ 1 2 (data r))) as [x X].
  sinces; versions; try vlia; rewrite read_packed_in by vlia; cbn [obind]; rewrite !at_take by vlia;
  rewrite X; cbn [obind]; fails.
Qed.

Lemma Cache_returns c r : from_version (version r) 2 1 -> Cache_area (version r) <= len (data r) ->
  exists o, Cache_try_from c r = Val o.
Proof.
  intros HV HL. unfold Cache_try_from, Cache_area in *.
  destruct (configuration_total (at_ 1 2 (data r))) as [x X].
  sinces; versions; try vlia; rewrite read_packed_in by vlia; cbn [obind]; rewrite !at_take by vlia;
  rewrite X; cbn [obind]; finds; eexists; reflexivity.
Qed.

Lemma Cache_panics c r : Cache_try_from c r = Panic <-> before_version (version r) 2 1.
Proof.
  unfold Cache_try_from.
  assert (P : forall n, (read_packed c n r = UB \/ exists p, read_packed c n r = Val p)).
  { intros n. unfold read_packed. destruct (n <=? _); [eauto|]. destruct (_ && _); eauto. }
  versions; try (split; [discriminate|intros; vlia]).
  - destruct (P 23) as [->|[p ->]]; cbn [obind]; [split; [discriminate|intros; vlia]|].
    destruct (configuration_total (at_ 1 2 p)) as [x ->]. finds; split; try discriminate; intros; vlia.
  - destruct (P 15) as [->|[p ->]]; cbn [obind]; [split; [discriminate|intros; vlia]|].
    destruct (configuration_total (at_ 1 2 p)) as [x ->]. finds; split; try discriminate; intros; vlia.
  - destruct (P 11) as [->|[p ->]]; cbn [obind]; [split; [discriminate|intros; vlia]|].
    destruct (configuration_total (at_ 1 2 p)) as [x ->]. finds; split; try discriminate; intros; vlia.
  - split; [intros; vlia|reflexivity].
Qed.

(* ---------------------------------------------------------- port connector *)

Lemma PortConnector_ok c r s : 5 <= len (data r) ->
  (PortConnector_try_from c r = Val (Ok s) <-> PortConnector_says r s).
Proof.
  intros HL. unfold PortConnector_try_from. rewrite read_packed_in by lia. cbn [obind]. rewrite !at_take by lia.
  rewrite !ConnectorType_from_meaning, PortType_from_meaning.
  split; [says_fwd; reflexivity|destruct s; says_bwd; reflexivity].
Qed.
Lemma PortConnector_err c r e : 5 <= len (data r) ->
  (PortConnector_try_from c r = Val (Err e) <-> first_bad_text r [0x04; 0x06] e).
Proof.
  intros HL. unfold PortConnector_try_from. rewrite read_packed_in by lia. cbn [obind]. rewrite !at_take by lia. fails.
Qed.
Lemma PortConnector_returns c r : 5 <= len (data r) -> exists o, PortConnector_try_from c r = Val o.
Proof.
  intros HL. unfold PortConnector_try_from. rewrite read_packed_in by lia. cbn [obind]. finds; eexists; reflexivity.
Qed.
