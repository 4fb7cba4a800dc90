(* Lemmas for property C76: flag words. *)
From Coq Require Import String.
From Coq Require Import ZArith Lia ZifyBool ZifyNat ZifyN.
From Verif Require Import Base G_Enums M_Raw M_BaseBoard M_Processor M_Cache M_MemoryDevice M_Flags Spec S_Decode S_System S_Hardware S_Memory S_Flags L_Base L_Decode L_System L_Hardware L_Cache L_Memory.
Local Open Scope string_scope.
Local Open Scope N_scope.
Ltac Zify.zify_post_hook ::= Z.div_mod_to_equations.

Lemma contains_bit x b : contains x (2 ^ b) = N.testbit x b.
Proof.
  unfold contains. destruct (N.eqb_spec (N.land x (2 ^ b)) (2 ^ b)) as [E|E].
  - apply (f_equal (fun y => N.testbit y b)) in E. rewrite N.land_spec, N.pow2_bits_true, andb_true_r in E. symmetry. exact E.
  - destruct (N.testbit x b) eqn:T; [|reflexivity]. destruct E. apply N.bits_inj. intros i. rewrite N.land_spec.
    destruct (N.eqb_spec i b) as [->|n]; [rewrite T; reflexivity|]. rewrite N.pow2_bits_false by congruence. apply andb_false_r.
Qed.
Lemma intersects_bit x b : intersects x (2 ^ b) = N.testbit x b.
Proof.
  unfold intersects. destruct (N.eqb_spec (N.land x (2 ^ b)) 0) as [E|E].
  - apply (f_equal (fun y => N.testbit y b)) in E. rewrite N.land_spec, N.pow2_bits_true, andb_true_r, N.bits_0 in E. rewrite E. reflexivity.
  - destruct (N.testbit x b) eqn:T; [reflexivity|]. destruct E. apply N.bits_inj. intros i. rewrite N.land_spec, N.bits_0.
    destruct (N.eqb_spec i b) as [->|n]; [rewrite T; reflexivity|]. rewrite N.pow2_bits_false by congruence. apply andb_false_r.
Qed.

(* constants that are bits, as the tables say *)
Definition bits_of_names (names : list (N * string)) : constants := map (fun p => (snd p, 2 ^ fst p)) names.
Lemma iter_names_bits x : forall names rem, NoDup (map fst names) -> (forall b, In b (map fst names) -> N.testbit rem b = N.testbit x b) ->
  map fst (iter_names_loop x rem (bits_of_names names)) = map snd (filter (fun p => N.testbit x (fst p)) names).
Proof.
  induction names as [|[b n] names IH]; intros rem ND H; [reflexivity|]. cbn [bits_of_names map fst snd iter_names_loop filter] in *.
  apply NoDup_cons_iff in ND. destruct ND as [NI ND]. rewrite contains_bit, intersects_bit, (H b (or_introl eq_refl)), andb_diag.
  destruct (N.testbit x b); cbn [map fst snd]; [f_equal|]; apply IH; try assumption; intros i I; [|apply H; right; exact I].
  rewrite N.ldiff_spec, (H i (or_intror I)). rewrite N.pow2_bits_false by (intros ->; contradiction). apply andb_true_r.
Qed.
(* a constant without bits is never listed *)
Lemma iter_names_zero x rem n cs : iter_names_loop x rem ((n, 0) :: cs) = iter_names_loop x rem cs.
Proof. cbn [iter_names_loop]. unfold intersects. rewrite N.land_0_r. cbn [N.eqb negb]. rewrite andb_false_r. reflexivity. Qed.

Lemma tells_bits cs names k x : (cs = bits_of_names names \/ exists n, cs = (n, 0) :: bits_of_names names) ->
  forallb (fun p => match constant cs (snd p) with Some f => f =? 2 ^ fst p | None => false end) names = true ->
  NoDup (map fst names) -> (forall b, In b (map fst names) -> N.testbit x b = N.testbit k b) -> tells cs names k x.
Proof.
  intros HC HN ND HX. split.
  - intros b n I. rewrite forallb_forall in HN. specialize (HN _ I). cbn [fst snd] in HN.
    destruct (constant cs n) as [f|]; [|discriminate]. apply N.eqb_eq in HN. subst f. exists (2 ^ b). split; [reflexivity|].
    assert (B : In b (map fst names)) by (apply in_map_iff; exists (b, n); auto).
    rewrite contains_bit, intersects_bit, (HX b B). split; reflexivity.
  - assert (E : map fst (iter_names cs x) = map fst (iter_names_loop x x (bits_of_names names))).
    { destruct HC as [->|[n ->]]; [reflexivity|]. unfold iter_names. rewrite iter_names_zero. reflexivity. }
    rewrite E, iter_names_bits by (auto; reflexivity). f_equal. clear E HC HN ND.
    induction names as [|[b n] names IH]; [reflexivity|]. cbn [filter fst map] in *. rewrite (HX b (or_introl eq_refl)).
    rewrite IH by (intros i I; apply HX; right; exact I). reflexivity.
Qed.

Definition distinct (l : list N) : bool :=
  (fix go l := match l with [] => true | a :: l => negb (existsb (N.eqb a) l) && go l end) l.
Lemma distinct_nodup l : distinct l = true -> NoDup l.
Proof.
  induction l as [|a l IH]; cbn; intros H; [constructor|]. apply andb_true_iff in H. destruct H as [H1 H2]. constructor; [|apply IH, H2].
  intros I. apply negb_true_iff in H1. assert (E : existsb (N.eqb a) l = true) by (apply existsb_exists; exists a; split; [exact I|apply N.eqb_refl]).
  rewrite E in H1. discriminate.
Qed.
Definition tables_ok (cs : constants) (names : list (N * string)) : Prop :=
  (cs = bits_of_names names \/ exists n, cs = (n, 0) :: bits_of_names names) /\
  forallb (fun p => match constant cs (snd p) with Some f => f =? 2 ^ fst p | None => false end) names = true /\
  NoDup (map fst names).
Lemma all_tables_ok cs names : In (cs, names) flag_types -> tables_ok cs names.
Proof.
  intros I. cbn [In flag_types] in I. unfold tables_ok. decompose [or] I; try contradiction;
    match goal with H : _ = (cs, names) |- _ => injection H as <- <- end;
    (split; [first [left; reflexivity|right; eexists; reflexivity]|split; [vm_compute; reflexivity|apply distinct_nodup; vm_compute; reflexivity]]).
Qed.

(* the named bits survive truncation *)
Lemma all_bits_has cs n b : In (n, 2 ^ b) cs -> N.testbit (all_bits cs) b = true.
Proof.
  unfold all_bits. induction cs as [|[m v] cs IH]; intros I; [destruct I|]. cbn [map snd fold_right]. rewrite N.lor_spec.
  destruct I as [I|I]; [injection I as -> ->; rewrite N.pow2_bits_true; reflexivity|]. rewrite (IH I). apply orb_true_r.
Qed.
Lemma constant_in cs n f : constant cs n = Some f -> In (n, f) cs.
Proof.
  induction cs as [|[m v] cs IH]; cbn [constant]; intros H; [discriminate|]. destruct (String.eqb_spec m n) as [->|]; [injection H as ->; left; reflexivity|right; apply IH, H].
Qed.
Lemma truncated_tells cs names k : In (cs, names) flag_types -> tells cs names k (from_bits_truncate cs k).
Proof.
  intros I. destruct (all_tables_ok cs names I) as [A [B C]]. apply tells_bits; try assumption. intros b IB.
  unfold from_bits_truncate. rewrite N.land_spec. apply in_map_iff in IB. destruct IB as [[b' n] [E IB]]. cbn [fst] in E. subst b'.
  rewrite forallb_forall in B. specialize (B _ IB). cbn [fst snd] in B. destruct (constant cs n) as [f|] eqn:F; [|discriminate].
  apply N.eqb_eq in B. subst f. rewrite (all_bits_has cs n b (constant_in _ _ _ F)). apply andb_true_r.
Qed.
(* flags_field gives the same *)
Lemma flags_tells cs names k x bits : In (cs, names) flag_types -> map fst names = bits -> named_bits bits k x -> tells cs names k x.
Proof.
  intros I E H. destruct (all_tables_ok cs names I) as [A [B C]]. apply tells_bits; try assumption. intros b IB. rewrite (H b).
  assert (X : existsb (N.eqb b) bits = true) by (apply existsb_exists; exists b; rewrite <- E; split; [exact IB|apply N.eqb_refl]).
  rewrite X. apply andb_true_r.
Qed.
Lemma flags_told r o w cs names bits x : In (cs, names) flag_types -> map fst names = bits -> flags_field r o w bits x -> told r o w cs names x.
Proof. intros I E [k [F H]]. exists k. split; [exact F|]. apply (flags_tells cs names k x bits); assumption. Qed.

(* the masks of the model are those of the constants *)
Lemma truncates : forall k,
  BaseBoardFlags_truncate k = from_bits_truncate BaseBoardFlags_constants k /\
  ProcessorStatus_truncate k = from_bits_truncate ProcessorStatus_constants k /\
  ProcessorCharacteristics_truncate k = from_bits_truncate ProcessorCharacteristics_constants k /\
  CacheSramType_truncate k = from_bits_truncate CacheSramType_constants k /\
  Detail_truncate k = from_bits_truncate Detail_constants k /\
  OperatingModes_truncate k = from_bits_truncate OperatingModes_constants k /\
  (N.land k 0x80 = 0 -> N.land k 0x78 = 0 -> Voltage_from k = Voltage_Legacy (from_bits_truncate VoltageLegacy_constants k)).
Proof.
  intros k. repeat (split; [reflexivity|]). intros A B. unfold Voltage_from. rewrite A, B. reflexivity.
Qed.

(* status *)
Lemma land7 k : N.land k 7 = k mod 8.
Proof. change 7 with (N.ones 3). rewrite N.land_ones. reflexivity. Qed.
Lemma status_low k x : named_bits [0; 1; 2; 6] k x -> N.land x 7 = k mod 8.
Proof.
  intros H. rewrite <- land7. apply N.bits_inj. intros i. rewrite !N.land_spec, (H i).
  destruct (N.lt_ge_cases i 3) as [L|G].
  - assert (C : i = 0 \/ i = 1 \/ i = 2) by lia. destruct C as [->|[->| ->]]; cbn [existsb N.eqb orb Pos.eqb]; rewrite andb_true_r; reflexivity.
  - change 7 with (N.ones 3). rewrite (N.ones_spec_high 3 i G), !andb_false_r. reflexivity.
Qed.
Lemma status_tells k x : named_bits [0; 1; 2; 6] k x -> tells_status k x.
Proof.
  intros H. split.
  - exists (2 ^ 6). split; [reflexivity|]. rewrite contains_bit, (H 6). cbn. apply andb_true_r.
  - intros code name I. assert (L := status_low k x H).
    cbn [In status_codes] in I. decompose [or] I; try contradiction;
      match goal with E : _ = (code, name) |- _ => injection E as <- <- end;
      (eexists; exists 7; split; [reflexivity|split; [reflexivity|]]; rewrite L; reflexivity).
Qed.
(* what `contains` and `iter_names` make of the codes *)
Lemma status_bios x : contains x 3 = N.testbit x 0 && N.testbit x 1.
Proof.
  rewrite <- !contains_bit. unfold contains. change 3 with (N.lor (2 ^ 0) (2 ^ 1)). rewrite N.land_lor_distr_r.
  generalize (contains_bit x 0), (contains_bit x 1). unfold contains. intros A B.
  destruct (N.eqb_spec (N.land x (2 ^ 0)) (2 ^ 0)) as [E|E], (N.eqb_spec (N.land x (2 ^ 1)) (2 ^ 1)) as [F|F];
    try (rewrite E, F; reflexivity); cbn [andb]; apply N.eqb_neq; intros G.
  all: apply (f_equal (fun y => (N.testbit y 0, N.testbit y 1))) in G; rewrite !N.lor_spec, !N.land_spec, <- A, <- B in G; cbn in G.
  all: rewrite ?andb_true_r, ?andb_false_r in G; cbn in G; discriminate.
Qed.

(* what is listed for a status *)
Definition never_listed (x : N) : bool :=
  forallb (fun p => negb (fst p =? "CPU_DISABLED_BY_BIOS")%string && negb (fst p =? "CPU_OTHER")%string) (iter_names ProcessorStatus_constants x).
Lemma status_listed x n f : x < 256 -> In (n, f) (iter_names ProcessorStatus_constants x) -> n <> "CPU_DISABLED_BY_BIOS" /\ n <> "CPU_OTHER".
Proof.
  intros L I. assert (E : never_listed x = true) by (revert x L I; intros x L _; apply by_bytes; [vm_compute; reflexivity|exact L]).
  unfold never_listed in E. rewrite forallb_forall in E. specialize (E _ I). cbn [fst] in E. apply andb_true_iff in E.
  destruct E as [A B]. apply negb_true_iff, String.eqb_neq in A. apply negb_true_iff, String.eqb_neq in B. auto.
Qed.

(* the structures *)
Lemma board_told c r b s f : readable c 10 r b -> BaseBoard_try_from c r = Val (Ok s) -> baseboard_feature_flags s = Some f ->
  told b 0x09 1 BaseBoardFlags_constants board_features f.
Proof.
  intros R H E. apply (BaseBoard_ok c r b s R) in H. destruct H as [_ _ _ _ _ _ H _ _ _]. rewrite E in H.
  destruct H as [[_ [x [X H]]]|[_ X]]; [|discriminate]. injection X as <-. revert H. apply flags_told; [cbn; tauto|reflexivity].
Qed.
Lemma processor_told c r s : all_bytes (data r) -> Processor_area (version r) <= len (data r) -> Processor_try_from c r = Val (Ok s) ->
  (exists k, field_is r 0x18 1 k /\ tells_status k (processor_status s)) /\
  (forall f, processor_processor_characteristics s = Some f ->
    told r 0x26 2 ProcessorCharacteristics_constants processor_characteristics f) /\
  (forall f, processor_voltage s = Voltage_Legacy f -> told r 0x11 1 VoltageLegacy_constants voltage_capabilities f).
Proof.
  intros A L H. apply (Processor_ok c r s A L) in H. destruct H as [_ _ _ _ _ _ _ V _ _ _ S _ _ _ _ _ _ _ _ _ _ C].
  split; [|split].
  - destruct S as [k [F N]]. exists k. split; [exact F|]. apply status_tells, N.
  - intros f E. rewrite E in C. destruct C as [[_ [x [X C]]]|[_ X]]; [|discriminate]. injection X as <-. revert C. apply flags_told; [cbn; tauto|reflexivity].
  - intros f E. destruct V as [k [F V]]. rewrite E in V. unfold voltage_means in V.
    destruct (128 <=? k); [discriminate|]. destruct (N.ltb_spec k 8); [|discriminate]. injection V as ->. exists k. split; [exact F|].
    apply (flags_tells _ _ _ _ [0; 1; 2]); [cbn; tauto|reflexivity|]. intros i. cbn [existsb].
    destruct (N.lt_ge_cases i 3) as [L3|G3].
    + assert (D : i = 0 \/ i = 1 \/ i = 2) by lia. destruct D as [->|[->| ->]]; cbn; rewrite andb_true_r; reflexivity.
    + assert (Z : N.testbit k i = false).
      { destruct (N.eq_dec k 0) as [->|nz]; [apply N.bits_0|]. apply N.bits_above_log2. apply N.log2_lt_pow2; [lia|].
        apply N.lt_le_trans with (2 ^ 3); [exact H|]. apply N.pow_le_mono_r; lia. }
      rewrite Z. reflexivity.
Qed.
Lemma cache_told c r s : all_bytes (data r) -> from_version (version r) 2 1 -> Cache_area (version r) <= len (data r) ->
  Cache_try_from c r = Val (Ok s) ->
  told r 0x0B 2 CacheSramType_constants sram_types (cache_supported_sram_type s) /\
  told r 0x0D 2 CacheSramType_constants sram_types (cache_current_sram_type s).
Proof.
  intros A V L H. apply (Cache_ok c r s A V L) in H. destruct H as [_ _ _ _ _ S C _ _ _ _ _ _].
  split; [revert S|revert C]; (apply flags_told; [cbn; tauto|reflexivity]).
Qed.
Lemma memory_told c r s : MemoryDevice_try_from c r = Val (Ok s) ->
  told r 0x13 2 Detail_constants type_details (memdev_type_detail s) /\
  (forall f, memdev_operating_mode_capability s = Some f -> told r 0x29 2 OperatingModes_constants operating_modes f).
Proof.
  intros H. apply MemoryDevice_ok in H. destruct H as [_ [_ _ _ _ _ _ _ _ _ _ _ D _ _ _ _ _ _ _ _ _ _ _ _ O _ _ _ _ _ _ _ _ _ _ _]].
  split; [revert D; apply flags_told; [cbn; tauto|reflexivity]|]. intros f E. rewrite E in O.
  destruct O as [[x [O X]]|[_ X]]; [|discriminate]. injection X as <-. revert O. apply flags_told; [cbn; tauto|reflexivity].
Qed.

(* is_empty, is_all and from_bits *)
Lemma all_bits_names names i : N.testbit (all_bits (bits_of_names names)) i = true <-> In i (map fst names).
Proof.
  unfold all_bits. induction names as [|[b n] names IH]; cbn [bits_of_names map fst snd fold_right In].
  - rewrite N.bits_0. split; [discriminate|tauto].
  - rewrite N.lor_spec, orb_true_iff. fold (bits_of_names names). rewrite IH. rewrite N.pow2_bits_eqb, N.eqb_eq. reflexivity.
Qed.
Lemma table_bits cs names i : In (cs, names) flag_types -> (N.testbit (all_bits cs) i = true <-> exists n, In (i, n) names).
Proof.
  intros I. destruct (all_tables_ok cs names I) as [A _].
  assert (E : N.testbit (all_bits cs) i = N.testbit (all_bits (bits_of_names names)) i) by (destruct A as [->|[n ->]]; reflexivity).
  rewrite E, all_bits_names, in_map_iff. split.
  - intros [[b n] [X Y]]. cbn in X. subst b. eauto.
  - intros [n H]. exists (i, n). auto.
Qed.
Lemma whole_words cs names k : In (cs, names) flag_types ->
  (is_empty (from_bits_truncate cs k) = true <-> forall bit name, In (bit, name) names -> N.testbit k bit = false) /\
  (is_all cs (from_bits_truncate cs k) = true <-> forall bit name, In (bit, name) names -> N.testbit k bit = true) /\
  (forall x, from_bits cs k = Some x <-> x = k /\ forall bit, N.testbit k bit = true -> exists name, In (bit, name) names).
Proof.
  intros I. pose proof (fun i => table_bits cs names i I) as T. unfold is_empty, is_all, from_bits, from_bits_truncate.
  split; [|split].
  - rewrite N.eqb_eq. split.
    + intros E b n H. apply (f_equal (fun y => N.testbit y b)) in E. rewrite N.land_spec, N.bits_0 in E.
      rewrite (proj2 (T b) (ex_intro _ n H)), andb_true_r in E. exact E.
    + intros H. apply N.bits_inj. intros i. rewrite N.land_spec, N.bits_0. destruct (N.testbit (all_bits cs) i) eqn:B; [|apply andb_false_r].
      destruct (proj1 (T i) B) as [n J]. rewrite (H _ _ J). reflexivity.
  - rewrite N.eqb_eq. split.
    + intros E b n H. apply (f_equal (fun y => N.testbit y b)) in E. rewrite N.lor_spec, N.land_spec in E.
      rewrite (proj2 (T b) (ex_intro _ n H)), andb_true_r in E. symmetry. exact E.
    + intros H. apply N.bits_inj. intros i. rewrite N.lor_spec, N.land_spec. destruct (N.testbit (all_bits cs) i) eqn:B; [|reflexivity].
      destruct (proj1 (T i) B) as [n J]. rewrite (H _ _ J). reflexivity.
  - intros x. destruct (N.eqb_spec (N.land k (all_bits cs)) k) as [E|E].
    + split; [|intros [-> _]; reflexivity]. intros X. injection X as <-. split; [reflexivity|]. intros b H. apply T.
      rewrite <- E, N.land_spec in H. apply andb_true_iff in H. apply H.
    + split; [discriminate|]. intros [_ H]. destruct E. apply N.bits_inj. intros i. rewrite N.land_spec.
      destruct (N.testbit k i) eqn:K; [|reflexivity]. cbn. apply T, H, K.
Qed.
