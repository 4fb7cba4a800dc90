(* Lemmas about derived equality and hashing. *)
From Coq Require Import String.
From Verif Require Import Base G_Enums M_Raw M_Enclosure M_SystemSlots M_SystemEventLog M_Iter M_Hash M_Eq Spec S_Hash L_Base L_Hash.
Local Open Scope N_scope.

(* The parts [e a] can be told apart, in whatever context, up to R. *)
Definition codec {A} (e : A -> list part) (R : A -> A -> Prop) : Prop :=
  (forall a b l m, derived_eq (e a ++ l) (e b ++ m) = true <-> R a b /\ derived_eq l m = true) /\
  (forall a b l m, derived_hash (e a ++ l) = derived_hash (e b ++ m) <-> R a b /\ derived_hash l = derived_hash m).

(* no call that could continue a list of slices *)
Definition quiet (l : list part) : Prop := forall n t, derived_hash l <> WriteUsize n :: t.
(* the same for parts of which the end is not marked *)
Definition open_codec {A} (e : A -> list part) (R : A -> A -> Prop) : Prop :=
  (forall a b l m, derived_eq (e a ++ l) (e b ++ m) = true <-> R a b /\ derived_eq l m = true) /\
  (forall a b l m, quiet l -> quiet m ->
    (derived_hash (e a ++ l) = derived_hash (e b ++ m) <-> R a b /\ derived_hash l = derived_hash m)).

Lemma codec_open {A} (e : A -> list part) R : codec e R -> open_codec e R.
Proof. intros [H1 H2]. split; [exact H1|]. intros. apply H2. Qed.
Lemma codec_iff {A} (e : A -> list part) R S : (forall a b, R a b <-> S a b) -> codec e R -> codec e S.
Proof. intros H [H1 H2]. split; intros; rewrite <- H; [apply H1|apply H2]. Qed.
Lemma open_codec_iff {A} (e : A -> list part) R S : (forall a b, R a b <-> S a b) -> open_codec e R -> open_codec e S.
Proof. intros H [H1 H2]. split; intros; rewrite <- H; [apply H1|apply H2; assumption]. Qed.

Lemma num_codec w : codec (num w) eq.
Proof.
  split; intros a b l m.
  - cbn. rewrite Bool.andb_true_iff, N.eqb_eq. reflexivity.
  - destruct w; cbn; (split; [intros H; injection H; auto|intros [-> H]; unfold derived_hash in H; rewrite H; reflexivity]).
Qed.
Lemma flag_codec : codec flag eq.
Proof.
  split; intros a b l m.
  - destruct a, b; cbn; intuition discriminate.
  - destruct a, b; cbn; (split; [intros H; try discriminate H; injection H; auto|intros [H G]; try discriminate H; unfold derived_hash in G; rewrite G; reflexivity]).
Qed.
Lemma str_codec : codec str eq.
Proof.
  split; intros a b l m.
  - cbn. rewrite Bool.andb_true_iff, slice_eq_iff. reflexivity.
  - cbn. split; [intros H; injection H; auto|intros [-> H]; unfold derived_hash in H; rewrite H; reflexivity].
Qed.
Lemma slice_codec : codec slice eq.
Proof.
  split; intros a b l m.
  - cbn. rewrite Bool.andb_true_iff, slice_eq_iff. reflexivity.
  - cbn. split; [intros H; injection H; auto|intros [-> H]; unfold derived_hash in H; rewrite H; reflexivity].
Qed.
Lemma tag_eq k j l m : derived_eq (Tag k :: l) (Tag j :: m) = true <-> k = j /\ derived_eq l m = true.
Proof. cbn. rewrite Bool.andb_true_iff, N.eqb_eq. reflexivity. Qed.
Lemma tag_hash k j l m : derived_hash (Tag k :: l) = derived_hash (Tag j :: m) <-> k = j /\ derived_hash l = derived_hash m.
Proof. cbn. split; [intros H; injection H; auto|intros [-> H]; unfold derived_hash in H; rewrite H; reflexivity]. Qed.
Lemma quiet_nil : quiet [].
Proof. intros n t. discriminate. Qed.
Lemma quiet_tag k l : quiet (Tag k :: l).
Proof. intros n t. discriminate. Qed.

Lemma peers_codec : open_codec peers eq.
Proof.
  assert (E : forall a b, a = b <-> peer_chunks a = peer_chunks b).
  { intros [a] [b]. cbn. split; congruence. }
  split; intros a b l m.
  - cbn. rewrite Bool.andb_true_iff, peers_eq_chunks, E. reflexivity.
  - intros Hl Hm. rewrite E. cbn [peers app derived_hash flat_map part_hash]. split.
    + intros H. apply hash_chunks in H; [|exact Hl|exact Hm]. destruct H as [H1 H2]. split; [|exact H2].
      apply peers_eq_chunks. apply iter_eq_iff. exact H1.
    + intros [H G]. unfold derived_hash in G. rewrite G. unfold PeerDevices_hash. rewrite H. reflexivity.
Qed.
Lemma descriptors_codec : open_codec descriptors (fun a b => EventLogTypeDescriptors_eq a b = true).
Proof.
  split; intros a b l m.
  - cbn. rewrite Bool.andb_true_iff. reflexivity.
  - intros Hl Hm. cbn [descriptors app derived_hash flat_map part_hash]. split.
    + intros H. apply hash_chunks in H; [|exact Hl|exact Hm]. destruct H as [H1 H2]. split; [|exact H2].
      apply iter_eq_iff. exact H1.
    + intros [H G]. unfold derived_hash in G. rewrite G. apply (proj1 descriptors_hash) in H. rewrite H. reflexivity.
Qed.
Lemma elements_codec : codec elements (fun a b => ContainedElements_eq a b = true).
Proof.
  split; intros a b l m.
  - cbn. rewrite Bool.andb_true_iff. reflexivity.
  - cbn [elements app derived_hash flat_map part_hash]. split.
    + intros H. unfold ContainedElements_hash in H. rewrite <- !app_assoc in H.
      apply hash_chunks in H; [|discriminate..]. destruct H as [H1 H2]. cbn in H2. injection H2 as H2 H3 H4.
      split; [|exact H4]. apply elements_eq_chunks. auto.
    + intros [H G]. unfold derived_hash in G. rewrite G. apply (proj1 elements_hash) in H. rewrite H. reflexivity.
Qed.

(* option, for any relation *)
Definition option_same {A} (R : A -> A -> Prop) (a b : option A) : Prop :=
  match a, b with None, None => True | Some x, Some y => R x y | _, _ => False end.
Lemma option_rel_codec {A} (e : A -> list part) R : codec e R -> codec (option_parts e) (option_same R).
Proof.
  intros [H1 H2]. split; intros [a|] [b|] l m; cbn [option_parts app option_same]; rewrite ?tag_eq, ?tag_hash, ?H1, ?H2;
    intuition discriminate.
Qed.
Lemma option_open_codec {A} (e : A -> list part) R : open_codec e R -> open_codec (option_parts e) (option_same R).
Proof.
  intros [H1 H2]. split; intros [a|] [b|] l m; cbn [option_parts app option_same]; rewrite ?tag_eq, ?tag_hash, ?H1; intros;
    rewrite ?tag_hash, ?H2 by assumption; intuition discriminate.
Qed.
Lemma option_same_eq {A} (a b : option A) : option_same eq a b <-> a = b.
Proof. destruct a, b; cbn; split; intros H; try discriminate H; try contradiction; try exact I; congruence. Qed.
Lemma option_codec {A} {e : A -> list part} : codec e eq -> codec (option_parts e) eq.
Proof. intros H. apply option_rel_codec in H. revert H. apply codec_iff. apply option_same_eq. Qed.

(* an enum with at most one integer in a variant *)
Lemma variant_codec {A} w (tag : A -> N) (value : A -> option N) (back : N -> N -> A) (has : N -> bool) :
  (forall a, back (tag a) (match value a with Some v => v | None => 0 end) = a) ->
  (forall a, has (tag a) = match value a with Some _ => true | None => false end) ->
  codec (fun a => variant_parts w (tag a) (value a)) eq.
Proof.
  intros HB HH.
  assert (E : forall a b, tag a = tag b -> value a = value b -> a = b).
  { intros a b H1 H2. rewrite <- (HB a), <- (HB b), H1, H2. reflexivity. }
  assert (K : forall a b, tag a = tag b -> (match value a with Some _ => true | None => false end) = match value b with Some _ => true | None => false end).
  { intros a b H. rewrite <- !HH, H. reflexivity. }
  destruct (num_codec w) as [N1 N2].
  split; intros a b l m; unfold variant_parts; cbn [app]; rewrite ?tag_eq, ?tag_hash; split.
  - intros [H1 H2]. pose proof (K a b H1) as HK. destruct (value a) eqn:Ea, (value b) eqn:Eb; try discriminate HK.
    + apply N1 in H2. destruct H2 as [-> H2]. split; [apply E; congruence|exact H2].
    + split; [apply E; congruence|exact H2].
  - intros [-> H]. split; [reflexivity|]. destruct (value b); [apply N1; auto|exact H].
  - intros [H1 H2]. pose proof (K a b H1) as HK. destruct (value a) eqn:Ea, (value b) eqn:Eb; try discriminate HK.
    + apply N2 in H2. destruct H2 as [-> H2]. split; [apply E; congruence|exact H2].
    + split; [apply E; congruence|exact H2].
  - intros [-> H]. split; [reflexivity|]. destruct (value b); [apply N2; auto|exact H].
Qed.

(* an enum given by cases *)
Lemma cases_codec {A} (tag : A -> N) (body : A -> list part) (R : A -> A -> Prop) :
  (forall a b, R a b -> tag a = tag b) ->
  (forall a b, tag a = tag b ->
    (forall l m, derived_eq (body a ++ l) (body b ++ m) = true <-> R a b /\ derived_eq l m = true) /\
    (forall l m, derived_hash (body a ++ l) = derived_hash (body b ++ m) <-> R a b /\ derived_hash l = derived_hash m)) ->
  codec (fun a => Tag (tag a) :: body a) R.
Proof.
  intros HR H. split; intros a b l m; cbn [app]; rewrite ?tag_eq, ?tag_hash; split.
  - intros [E H1]. apply H in H1; assumption.
  - intros [E H1]. pose proof (HR a b E) as ET. split; [exact ET|]. apply (proj1 (H a b ET)). auto.
  - intros [E H1]. apply (proj2 (H a b E)) in H1. assumption.
  - intros [E H1]. pose proof (HR a b E) as ET. split; [exact ET|]. apply (proj2 (H a b ET)). auto.
Qed.

(* records *)
Lemma on_codec {A B} (f : A -> B) {e : B -> list part} {R} : codec e R -> codec (fun a => e (f a)) (fun a b => R (f a) (f b)).
Proof. intros [H1 H2]. split; intros; [apply H1|apply H2]. Qed.
Lemma on_open_codec {A B} (f : A -> B) {e : B -> list part} {R} : open_codec e R -> open_codec (fun a => e (f a)) (fun a b => R (f a) (f b)).
Proof. intros [H1 H2]. split; intros; [apply H1|apply H2; assumption]. Qed.
Lemma then_codec {A} {e1 e2 : A -> list part} {R1 R2} : codec e1 R1 -> codec e2 R2 ->
  codec (fun a => e1 a ++ e2 a) (fun a b => R1 a b /\ R2 a b).
Proof.
  intros [H1 H2] [G1 G2]. split; intros a b l m; rewrite <- !app_assoc; rewrite ?H1, ?H2, ?G1, ?G2; tauto.
Qed.
Lemma then_open {A} {e1 e2 : A -> list part} {R1 R2} : codec e1 R1 -> open_codec e2 R2 ->
  open_codec (fun a => e1 a ++ e2 a) (fun a b => R1 a b /\ R2 a b).
Proof.
  intros [H1 H2] [G1 G2]. split; intros a b l m; intros; rewrite <- !app_assoc; rewrite ?H1, ?H2, ?G1, ?G2 by assumption; tauto.
Qed.
Lemma then_quiet {A} {e1 e2 : A -> list part} {R1 R2} : open_codec e1 R1 -> codec e2 R2 ->
  (forall a l, quiet (e2 a ++ l)) -> codec (fun a => e1 a ++ e2 a) (fun a b => R1 a b /\ R2 a b).
Proof.
  intros [H1 H2] [G1 G2] Q. split; intros a b l m; rewrite <- !app_assoc.
  - rewrite H1, G1. tauto.
  - rewrite H2 by apply Q. rewrite G2. tauto.
Qed.

(* a record whose fields are compared for equality *)
Ltac record_codec t :=
  eapply codec_iff; [|exact t]; intros a b; cbv beta; split;
    [destruct a, b; cbn; intros H; decompose [and] H; subst; reflexivity
    |intros ->; repeat split; reflexivity].

(* one case of an enum *)
Lemma codec_ext {A} (e e' : A -> list part) R : (forall a, e a = e' a) -> codec e R -> codec e' R.
Proof. intros H [H1 H2]. split; intros a b l m; rewrite <- !H; [apply H1|apply H2]. Qed.
Ltac case_done :=
  split; [intros H; decompose [and] H; subst; split; [first [reflexivity|congruence]|assumption]
         |intros [H1 H2]; try (injection H1; intros; subst); auto].
