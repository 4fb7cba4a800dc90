(* Lemmas about equality and hashing of the bit field types. *)
From Coq Require Import String Ascii.
From Coq Require Import ZArith Lia ZifyBool ZifyNat ZifyN.
From Verif Require Import Base M_Raw M_Hash M_Eq M_Bitfield M_BitfieldEq Spec S_Hash S_Bitfield L_Base L_Hash L_Eq L_Bitfield.
Local Open Scope N_scope.

Lemma str_bytes_inj a b : str_bytes a = str_bytes b -> a = b.
Proof.
  unfold str_bytes. revert b. induction a as [|x a IH]; intros [|y b]; cbn; intros H; try discriminate H; [reflexivity|].
  injection H as H1 H2. f_equal; [|apply IH; exact H2].
  rewrite <- (ascii_N_embedding x), <- (ascii_N_embedding y), H1. reflexivity.
Qed.
Lemma string_codec : codec (fun s => str (str_bytes s)) eq.
Proof.
  eapply codec_iff; [|exact (on_codec str_bytes str_codec)]. intros a b. cbv beta. split; [apply str_bytes_inj|intros ->; reflexivity].
Qed.
Lemma FlagType_codec : codec FlagType_parts eq.
Proof.
  pose proof string_codec as [S1 S2].
  pose (tag := fun t => match t with FUnknown => 0 | Significant _ _ => 1 | FReserved _ => 2 end).
  pose (body := fun t => match t with FUnknown => [] | Significant m d => str (str_bytes m) ++ str (str_bytes d) | FReserved n => str (str_bytes n) end).
  apply (codec_ext (fun t => Tag (tag t) :: body t)); [intros []; reflexivity|].
  apply cases_codec; [intros a b ->; reflexivity|].
  intros [|m d|n] [|m' d'|n']; cbn [tag]; intros H; try discriminate H; cbn [body]; split; intros l k;
    rewrite <- ?app_assoc; rewrite ?S1, ?S2; cbn [app].
  - split; [auto|intros [_ H1]; exact H1].
  - split; [auto|intros [_ H1]; exact H1].
  - split; [intros (-> & -> & E); auto|intros [E1 E2]; injection E1 as -> ->; auto].
  - split; [intros (-> & -> & E); auto|intros [E1 E2]; injection E1 as -> ->; auto].
  - split; [intros (-> & E); auto|intros [E1 E2]; injection E1 as ->; auto].
  - split; [intros (-> & E); auto|intros [E1 E2]; injection E1 as ->; auto].
Qed.
Lemma Layout_codec : codec Layout_parts eq.
Proof.
  pose proof FlagType_codec as [F1 F2]. pose proof (num_codec Usize) as [U1 U2].
  split; intros a b l m; unfold Layout_parts; rewrite <- !app_assoc; rewrite ?U1, ?U2.
  - split; [|intros [-> H]; split; [reflexivity|]].
    + intros [E H]. revert b E H. induction a as [|x a IH]; intros [|y b] E H; try (cbn in E; lia); [auto|].
      cbn [flat_map] in H. rewrite <- !app_assoc in H. rewrite F1 in H. destruct H as [-> H].
      destruct (IH b) as [-> G]; [rewrite !len_cons in E; lia|exact H|auto].
    + clear - F1 H. induction b as [|x b IH]; [exact H|]. cbn [flat_map]. rewrite <- !app_assoc, F1. auto.
  - split; [|intros [-> H]; split; [reflexivity|]].
    + intros [E H]. revert b E H. induction a as [|x a IH]; intros [|y b] E H; try (cbn in E; lia); [auto|].
      cbn [flat_map] in H. rewrite <- !app_assoc in H. rewrite F2 in H. destruct H as [-> H].
      destruct (IH b) as [-> G]; [rewrite !len_cons in E; lia|exact H|auto].
    + clear - F2 H. induction b as [|x b IH]; [exact H|]. cbn [flat_map]. rewrite <- !app_assoc, F2. auto.
Qed.

Lemma codec_alone {A} (e : A -> list part) R : codec e R ->
  forall a b, (derived_eq (e a) (e b) = true <-> R a b) /\ (derived_hash (e a) = derived_hash (e b) <-> R a b).
Proof.
  intros [H1 H2] a b. specialize (H1 a b [] []). specialize (H2 a b [] []). rewrite !app_nil_r in *.
  cbn in H1, H2. rewrite H1, H2. tauto.
Qed.
Lemma Flag_codec : codec Flag_parts eq.
Proof.
  record_codec (then_codec (on_codec position (num_codec Usize)) (then_codec (on_codec is_set flag_codec) (on_codec type_ FlagType_codec))).
Qed.
Definition same_iter (a b : Iter) : Prop :=
  it_value a = it_value b /\ it_index a = it_index b /\ it_layout a = it_layout b.
Lemma Iter_codec w : codec (Iter_parts w) same_iter.
Proof.
  exact (then_codec (on_codec it_value (num_codec w)) (then_codec (on_codec it_index (num_codec Usize)) (on_codec it_layout Layout_codec))).
Qed.
Lemma Reserved_codec w : codec (Reserved_parts w) (fun a b => same_iter (rv_iter a) (rv_iter b) /\ rv_desc a = rv_desc b /\ rv_start a = rv_start b).
Proof.
  exact (then_codec (on_codec rv_iter (Iter_codec w)) (then_codec (on_codec rv_desc (option_codec string_codec)) (on_codec rv_start (num_codec Usize)))).
Qed.
Lemma ReservedRange_codec : codec ReservedRange_parts eq.
Proof.
  eapply codec_iff; [|exact (then_codec (on_codec description string_codec) (then_codec (on_codec range_start (num_codec Usize))
    (then_codec (on_codec range_end (num_codec Usize)) (on_codec (fun _ => false) flag_codec))))].
  intros a b. cbv beta. split; [destruct a, b; cbn; intros (-> & -> & -> & _); reflexivity|intros ->; repeat split].
Qed.
Lemma same_iter_eq a b : it_size a = it_size b -> (same_iter a b <-> a = b).
Proof. intros E. split; [destruct a, b; unfold same_iter; cbn in *; intros (-> & -> & ->); congruence|intros ->; repeat split]. Qed.
Lemma Iter_by_value w a b : it_size a = it_size b -> (Iter_eq w a b = true <-> a = b) /\ (Iter_hash w a = Iter_hash w b <-> a = b).
Proof. intros E. pose proof (codec_alone _ _ (Iter_codec w) a b) as H. rewrite (same_iter_eq a b E) in H. exact H. Qed.
Lemma Reserved_by_value w a b : it_size (rv_iter a) = it_size (rv_iter b) ->
  (Reserved_eq w a b = true <-> a = b) /\ (Reserved_hash w a = Reserved_hash w b <-> a = b).
Proof.
  intros E. pose proof (codec_alone _ _ (Reserved_codec w) a b) as H. cbv beta in H. rewrite (same_iter_eq _ _ E) in H.
  assert (K : (rv_iter a = rv_iter b /\ rv_desc a = rv_desc b /\ rv_start a = rv_start b) <-> a = b).
  { split; [destruct a, b; cbn; intros (-> & -> & ->); reflexivity|intros ->; auto]. }
  rewrite K in H. exact H.
Qed.

(* fresh iterators *)
Lemma flags_inj l1 l2 v1 v2 p : flags v1 p l1 = flags v2 p l2 ->
  l1 = l2 /\ forall q, p <= q < p + len l1 -> N.testbit v1 q = N.testbit v2 q.
Proof.
  intros H.
  assert (K : forall n f, nth_error (flags v1 p l1) n = Some f <-> nth_error (flags v2 p l2) n = Some f) by (rewrite H; tauto).
  assert (E : l1 = l2).
  { revert l2 p H K. induction l1 as [|x l1 IH]; intros [|y l2] p H K; cbn in H; try discriminate H; [reflexivity|].
    injection H as H1 H2 H3. f_equal; [exact H2|]. apply (IH l2 (p + 1)).
    - exact H3.
    - rewrite H3. tauto. }
  split; [exact E|]. subst l2. intros q Hq.
  destruct (nth_error l1 (N.to_nat (q - p))) as [t|] eqn:T.
  2:{ apply nth_error_None in T. unfold len in Hq. lia. }
  specialize (K (N.to_nat (q - p)) {| position := q; is_set := N.testbit v1 q; type_ := t |}).
  rewrite !flags_nth in K. cbn in K.
  destruct K as [K _]. destruct K as (_ & K & _).
  - rewrite N2Nat.id. replace (p + (q - p)) with q by lia. auto.
  - rewrite N2Nat.id in K. replace (p + (q - p)) with q in K by lia. exact K.
Qed.
Lemma fresh_equal c size v1 v2 l1 l2 w : size <= 16 -> len l1 = size * 8 -> len l2 = size * 8 ->
  v1 < 2 ^ (size * 8) -> v2 < 2 ^ (size * 8) ->
  (Iter_eq w (iter_new size v1 l1) (iter_new size v2 l2) = true <-> yield_the_same (iter_next c) (iter_new size v1 l1) (iter_new size v2 l2)).
Proof.
  intros HS H1 H2 B1 B2. rewrite (proj1 (Iter_by_value w (iter_new size v1 l1) (iter_new size v2 l2) eq_refl)).
  destruct (iter_all c size v1 l1 HS ltac:(lia)) as [i1 [D1 _]]. destruct (iter_all c size v2 l2 HS ltac:(lia)) as [i2 [D2 _]].
  rewrite take_all in D1, D2 by lia.
  split.
  - intros E. injection E as -> ->. exists (flags v2 0 l2), i2, i2. auto.
  - intros (l & a' & b' & Da & Db).
    destruct (drains_fun _ _ _ _ _ _ Da D1) as [-> _]. destruct (drains_fun _ _ _ _ _ _ Db D2) as [E _].
    apply flags_inj in E. destruct E as [-> T].
    f_equal. apply N.bits_inj. intros q. destruct (N.lt_ge_cases q (size * 8)) as [Q|Q].
    + apply T. lia.
    + rewrite (testbit_high v1 (size * 8) q B1 Q), (testbit_high v2 (size * 8) q B2 Q). reflexivity.
Qed.

(* default iterators *)
Lemma default_panics c size : 0 < size ->
  iter_next c (Iter_default size) = Panic /\ significants_next c (Significants_default size) = Panic /\
  reserved_next c (Reserved_default size) = Panic.
Proof.
  intros H. assert (E : iter_next c (Iter_default size) = Panic).
  { unfold iter_next, Iter_default. cbn [it_index it_size it_value it_layout]. replace (0 =? size * 8) with false by lia. reflexivity. }
  split; [exact E|]. split.
  - unfold significants_next, Significants_default. cbn [length significants_loop Iter_default it_layout] in *.
    change {| it_size := size; it_value := 0; it_index := 0; it_layout := [] |} with (Iter_default size). rewrite E. reflexivity.
  - unfold reserved_next, Reserved_default. cbn [length reserved_loop rv_iter Iter_default it_layout] in *.
    change {| it_size := size; it_value := 0; it_index := 0; it_layout := [] |} with (Iter_default size). rewrite E. reflexivity.
Qed.
