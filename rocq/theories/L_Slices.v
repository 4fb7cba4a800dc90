(* Proofs about the public conversions from byte slices and the element counter. *)
From Coq Require Import ZArith Lia ZifyBool ZifyNat ZifyN.
From Verif Require Import Base G_Enums M_Raw M_Enclosure M_SystemSlots M_Accessors.
From Verif Require Import Spec S_Enums S_Decode S_System S_Hardware L_Base L_Decode L_System L_Enclosure L_Hardware L_Slots L_Lazy.
Ltac Zify.zify_post_hook ::= Z.div_mod_to_equations.
Local Open Scope N_scope.

Lemma count_stays c e o e' : ContainedElements_next c e = Val (o, e') -> ContainedElements_count e' = ContainedElements_count e.
Proof.
  unfold ContainedElements_next, ContainedElements_count. destruct (ce_chunks e); [congruence|].
  destruct (ContainedElement_from c _ _); cbn [obind]; try discriminate. intros [= _ <-]. reflexivity.
Qed.

Lemma wrapped_few n m k : 0 < m -> m < 256 -> k * m < (n * m) mod 256 + m ->
  (n * m) mod 256 <= k * m -> k = n <-> n = 0 \/ n * m < 256.
Proof.
  intros M M' B F. split.
  - intros ->. destruct (N.eq_dec n 0); [auto|right]. set (x := n * m) in *. lia.
  - intros [->|H].
    + rewrite N.mul_0_l in *. cbn in *. destruct (N.eq_dec k 0); [assumption|].
      assert (1 * m <= k * m) by (apply N.mul_le_mono_r; lia). lia.
    + rewrite N.mod_small in B, F by exact H.
      apply N.mul_le_mono_pos_r in F; [|exact M].
      assert (k * m < (n + 1) * m) by lia. apply N.mul_lt_mono_pos_r in H0; [|exact M]. lia.
Qed.

Lemma count_exact c r s e l s' : all_bytes (data r) -> 5 <= len (data r) -> Enclosure_fits c r ->
  Enclosure_try_from c r = Val (Ok s) -> enclosure_contained_elements s = Some e ->
  drains (ContainedElements_next c) e l s' ->
  field_is r 0x13 1 (ContainedElements_count e) /\
  (ContainedElements_count e = len l <->
   ContainedElements_count e = 0 \/ exists m, field_is r 0x14 1 m /\ 0 < m /\ ContainedElements_count e * m < 256).
Proof.
  intros HA HL HF HD HE HDr. apply Enclosure_ok in HD; [|assumption..].
  destruct HD as [_ _ _ _ _ _ _ _ _ _ _ _ _ _ W _]. 
  destruct W as [[RE [e1 [W1 [F1 [F2 [CH AF]]]]]]|[_ W]]; [|congruence].
  rewrite HE in W1. injection W1 as <-. unfold ContainedElements_count.
  split; [exact F1|].
  assert (R : record_bytes r = (ce_count e * ce_record_length e) mod 256).
  { unfold record_bytes, field_is in *. rewrite F1, F2. reflexivity. }
  assert (MB : ce_record_length e < 256).
  { exact (field_lt r 0x14 1 _ HA F2). }
  assert (LC : len (ce_chunks e) = (ce_count e * ce_record_length e) mod 256).
  { rewrite CH, <- R, len_take, len_drop. unfold reaches in RE. lia. }
  destruct (N.eq_dec (ce_record_length e) 0) as [Z|NZ].
  - rewrite Z, N.mul_0_r in LC. cbn in LC. assert (L : l = []).
    { destruct (ce_chunks e) eqn:E; [|unfold len in LC; cbn [length] in LC; lia].
      inversion HDr as [? ? X|? ? ? ? ? X]; [reflexivity|]. subst. unfold ContainedElements_next in X. rewrite E in X. discriminate X. }
    subst l. change (len []) with 0. split; [auto|]. intros [H|[m [H [P _]]]]; [exact H|].
    unfold field_is in *. rewrite F2 in H. injection H as <-. lia.
  - destruct (elements_count c _ e ltac:(lia) (le_n _)) as [l0 [e0 [RN [_ [B F]]]]].
    apply drains_runs in HDr. destruct (runs_fun _ _ _ _ _ _ HDr RN) as [<- <-].
    specialize (F _ eq_refl). rewrite LC in *.
    pose proof (wrapped_few (ce_count e) (ce_record_length e) (len l) ltac:(lia) MB B F) as K.
    split.
    + intros H. symmetry in H. apply K in H. destruct H as [H|H]; [auto|right].
      exists (ce_record_length e). repeat split; [exact F2|lia|exact H].
    + intros H. symmetry. apply K. destruct H as [H|[m [H [_ P]]]]; [auto|right].
      unfold field_is in *. rewrite F2 in H. injection H as <-. exact P.
Qed.

(* ------------------------------------------------- conversions from slices *)

Lemma device_ub p : Device_from p = UB <-> len p < 5.
Proof. unfold Device_from. destruct (N.leb_spec 5 (len p)); split; intros; try discriminate; try lia; reflexivity. Qed.
Lemma device_val p : 5 <= len p -> exists d, Device_from p = Val d /\ device_means (take 5 p) d.
Proof.
  intros H. destruct p as [|s0 [|s1 [|b [|f [|w more]]]]]; try (unfold len in H; cbn [length] in H; lia).
  eexists. split; [apply device_from_means|]. exists s0, s1, b, f, w. split; reflexivity.
Qed.

Lemma element_val c d aft : all_bytes d -> 3 <= len d -> exists x, ContainedElement_from c d aft = Val x /\ element_means d x.
Proof.
  intros HA H. destruct d as [|t [|lo [|hi more]]]; try (unfold len in H; cbn [length] in H; lia).
  apply element_from. inversion HA; assumption.
Qed.
Lemma element_ub c d aft : ContainedElement_from c d aft = UB <->
  len d < 3 /\ (flat_memory c = false \/ len (d ++ aft) < 3).
Proof.
  unfold ContainedElement_from. destruct (N.leb_spec 3 (len d)); [split; [discriminate|lia]|].
  destruct (flat_memory c); cbn [andb].
  - destruct (N.leb_spec 3 (len (d ++ aft))); cbn [obind]; split; try discriminate; auto.
    intros [_ [X|X]]; [discriminate|lia].
  - cbn [obind]. split; auto.
Qed.
