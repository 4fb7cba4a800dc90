(* Lemmas for C106. *)
From Coq Require Import ZArith Lia ZifyBool ZifyNat ZifyN.
From Coq Require Import String.
From Verif Require Import Base G_Enums M_Raw M_Entry M_Bios M_System M_BaseBoard M_Enclosure M_Processor M_Cache M_PortConnector.
From Verif Require Import M_SystemSlots M_Strings M_GroupAssociations M_SystemEventLog M_PhysicalMemoryArray M_MemoryDevice M_Memory.
From Verif Require Import M_PortableBattery M_Iter Spec S_Iter S_Decode S_Versions S_Milestones L_Base L_Decode L_Frame L_Iter L_Versions.
Ltac Zify.zify_post_hook ::= Z.div_mod_to_equations.
Local Open Scope N_scope.

Lemma version_eq_iff v a b : a < 256 -> b < 256 -> version_eq v (version_of a b) = true <-> major v = a /\ minor v = b.
Proof. intros HA HB. unfold version_eq, version_of. cbn [major minor]. unfold cast. lia. Qed.
Lemma eq_since v a b : a < 256 -> b < 256 -> version_eq v (version_of a b) = since v a b && negb (since v a (b + 1)).
Proof.
  intros HA HB. apply Bool.eq_iff_eq_true. rewrite version_eq_iff by assumption.
  rewrite Bool.andb_true_iff, Bool.negb_true_iff, since_iff, since_not. unfold from_version, before_version. lia.
Qed.

Lemma since_same v w a b : (from_version v a b <-> from_version w a b) <-> since v a b = since w a b.
Proof.
  split.
  - intros H. apply Bool.eq_iff_eq_true. rewrite !since_iff. exact H.
  - intros H. rewrite <- !since_iff, H. reflexivity.
Qed.

Ltac tests := repeat first
  [rewrite lt_since by reflexivity|rewrite ge_since by reflexivity|rewrite gt_since by reflexivity|rewrite eq_since by reflexivity].
Ltac sames H := repeat match goal with
  | |- context [since ?v ?a ?b] =>
    match type of H with same_side v ?w _ =>
      rewrite (proj1 (since_same v w a b) (H a b ltac:(cbn; tauto))) end
  end.

Section Same.
Variables (c : cfg) (r : RawStructure) (v w : SmbiosVersion).
Ltac decoder D T := intros H; unfold D; cbn [version at_version]; tests; T; sames H; reflexivity.

Lemma Bios_same : same_side v w (milestones InfoType_Bios) -> Bios_try_from c (at_version v r) = Bios_try_from c (at_version w r).
Proof. decoder Bios_try_from idtac. Qed.
Lemma System_same : same_side v w (milestones InfoType_System) -> System_try_from c (at_version v r) = System_try_from c (at_version w r).
Proof. intros H; unfold System_try_from, decode_by_smbios_version. cbn [version at_version]. tests. sames H. reflexivity. Qed.
Lemma Processor_same : same_side v w (milestones InfoType_Processor) -> Processor_try_from c (at_version v r) = Processor_try_from c (at_version w r).
Proof. decoder Processor_try_from idtac. Qed.
Lemma Cache_same : same_side v w (milestones InfoType_Cache) -> Cache_try_from c (at_version v r) = Cache_try_from c (at_version w r).
Proof. decoder Cache_try_from idtac. Qed.
Lemma SystemSlots_same : same_side v w (milestones InfoType_SystemSlots) -> SystemSlots_try_from c (at_version v r) = SystemSlots_try_from c (at_version w r).
Proof. decoder SystemSlots_try_from idtac. Qed.
Lemma SystemEventLog_same : same_side v w (milestones InfoType_SystemEventLog) -> SystemEventLog_try_from c (at_version v r) = SystemEventLog_try_from c (at_version w r).
Proof. decoder SystemEventLog_try_from idtac. Qed.
Lemma PhysicalMemoryArray_same : same_side v w (milestones InfoType_PhysicalMemoryArray) -> PhysicalMemoryArray_try_from c (at_version v r) = PhysicalMemoryArray_try_from c (at_version w r).
Proof. decoder PhysicalMemoryArray_try_from idtac. Qed.
Lemma MemoryError32_same : same_side v w (milestones InfoType_MemoryError32) -> MemoryError32_try_from c (at_version v r) = MemoryError32_try_from c (at_version w r).
Proof. decoder MemoryError32_try_from idtac. Qed.
Lemma MemoryArrayMappedAddress_same : same_side v w (milestones InfoType_MemoryArrayMappedAddress) -> MemoryArrayMappedAddress_try_from c (at_version v r) = MemoryArrayMappedAddress_try_from c (at_version w r).
Proof. decoder MemoryArrayMappedAddress_try_from idtac. Qed.
Lemma MemoryDeviceMappedAddress_same : same_side v w (milestones InfoType_MemoryDeviceMappedAddress) -> MemoryDeviceMappedAddress_try_from c (at_version v r) = MemoryDeviceMappedAddress_try_from c (at_version w r).
Proof. decoder MemoryDeviceMappedAddress_try_from idtac. Qed.
Lemma BuiltInPointingDevice_same : same_side v w (milestones InfoType_BuiltInPointingDevice) -> BuiltInPointingDevice_try_from c (at_version v r) = BuiltInPointingDevice_try_from c (at_version w r).
Proof. decoder BuiltInPointingDevice_try_from idtac. Qed.
Lemma PortableBattery_same : same_side v w (milestones InfoType_PortableBattery) -> PortableBattery_try_from c (at_version v r) = PortableBattery_try_from c (at_version w r).
Proof. decoder PortableBattery_try_from idtac. Qed.
Lemma BiosLanguage_same : same_side v w (milestones InfoType_BiosLanguage) ->
  map_ok SBiosLanguage (BiosLanguage_try_from c (at_version w r)) =
  renumbered_course w (map_ok SBiosLanguage (BiosLanguage_try_from c (at_version v r))).
Proof.
  intros H. unfold BiosLanguage_try_from. cbn [version at_version]. tests. sames H.
  change (read_packed c 18 (at_version v r)) with (read_packed c 18 (at_version w r)).
  change (read_packed c 17 (at_version v r)) with (read_packed c 17 (at_version w r)).
  destruct (since w 2 1).
  - destruct (read_packed c 18 (at_version w r)); reflexivity.
  - destruct (read_packed c 17 (at_version w r)); reflexivity.
Qed.
End Same.

Lemma plain_course {A} w (f : A -> Structure) (m : out (res A)) : (forall a, renumbered w (f a) = f a) ->
  renumbered_course w (map_ok f m) = map_ok f m.
Proof. intros H. destruct m as [[a|e]| |]; cbn; try reflexivity. rewrite H. reflexivity. Qed.

Lemma dispatch_same c r v w : same_side v w (milestones (info r)) ->
  dispatch c (at_version w r) = renumbered_course w (dispatch c (at_version v r)).
Proof.
  intros H. unfold dispatch. cbn [info at_version].
  destruct (info r) eqn:I; first
  [ reflexivity
  | exact (BiosLanguage_same c r v w H)
  | rewrite plain_course by reflexivity; first
    [ reflexivity
    | rewrite (Bios_same c r v w H); reflexivity
    | rewrite (System_same c r v w H); reflexivity
    | rewrite (Processor_same c r v w H); reflexivity
    | rewrite (Cache_same c r v w H); reflexivity
    | rewrite (SystemSlots_same c r v w H); reflexivity
    | rewrite (SystemEventLog_same c r v w H); reflexivity
    | rewrite (PhysicalMemoryArray_same c r v w H); reflexivity
    | rewrite (MemoryError32_same c r v w H); reflexivity
    | rewrite (MemoryArrayMappedAddress_same c r v w H); reflexivity
    | rewrite (MemoryDeviceMappedAddress_same c r v w H); reflexivity
    | rewrite (BuiltInPointingDevice_same c r v w H); reflexivity
    | rewrite (PortableBattery_same c r v w H); reflexivity ] ].
Qed.

(* ------------------------------------------------------------- whole tables *)

Lemma milestones_all i : incl (milestones i) all_milestones.
Proof. intros m H. destruct i; cbn in *; tauto. Qed.

Lemma next_same c v w s : same_side v w all_milestones ->
  next c (announcing w s) =
  match next c (announcing v s) with
  | Val (Some x, s') => Val (Some (renumbered_item w x), announcing w s')
  | Val (None, s') => Val (None, announcing w s')
  | Panic => Panic
  | UB => UB
  end.
Proof.
  intros H. rewrite !next_announcing.
  destruct (next_raw c s) as [[[[r|e]|] s1]| |]; try reflexivity. cbv zeta.
  assert (M : (3 <=? major v) = (3 <=? major w)).
  { pose proof (H 3 0 ltac:(cbn; tauto)) as A. unfold from_version in A. lia. }
  rewrite <- M. rewrite (dispatch_same c r v w) by (intros a b HI; apply H, (milestones_all (info r)), HI).
  destruct (dispatch c (at_version v r)) as [[x|e]| |]; reflexivity.
Qed.

Lemma drains_same c v w s l e : same_side v w all_milestones ->
  drains (next c) (announcing v s) l e ->
  drains (next c) (announcing w s) (map (renumbered_item w) l) (announcing w e).
Proof.
  intros H. remember (announcing v s) as s0 eqn:E. intros D. revert s E.
  induction D as [s0 s1 N|s0 x s1 l e N D IH]; intros s ->.
  - apply drains_nil. rewrite (next_same c v w s H), N. reflexivity.
  - cbn [map]. eapply drains_cons; [rewrite (next_same c v w s H), N; reflexivity|].
    assert (A : announcing w s1 = announcing w (announcing v s1)) by reflexivity.
    rewrite A. apply IH.
    rewrite next_announcing in N.
    destruct (next_raw c s) as [[[[r|e']|] s2]| |]; try discriminate N.
    + destruct (dispatch c (at_version v r)); cbn [obind] in N; try discriminate N. injection N as <- <-. reflexivity.
    + injection N as <- <-. reflexivity.
Qed.

(* ------------------------------------------- every milestone makes a difference *)

Definition strict : cfg := {| overflow_checks := true; flat_memory := false; pointer_width := W64 |}.
Definition sample (i : InfoType) (d : list N) : RawStructure := {|
  version := {| major := 2; minor := 0 |}; info := i; length_ := 4 + len d; handle := 7;
  data := d; strings := [65; 0; 66; 67; 0; 68; 0; 0]; after := [65; 0; 66; 67; 0; 68; 0; 0] |}.

(* structures that tell the versions apart *)
Definition samples (i : InfoType) : list (list N) :=
  match i with
  | InfoType_Bios => [[1; 2; 0x00; 0xE8; 3; 0x7F; 1; 2; 3; 4; 5; 6; 7; 8; 0x33; 0x0D; 2; 11; 0xFF; 0xFE; 0x10; 0x40]]
  | InfoType_System => [[1; 2; 3; 0; 0x33; 0x22; 0x11; 0x00; 0x55; 0x44; 0x77; 0x66; 0x88; 0x99; 0xAA; 0xBB; 0xCC; 0xDD; 0xEE; 0xFF; 6; 1; 2]]
  | InfoType_Processor =>
      [[1; 3; 0xFE; 2; 1; 2; 3; 4; 5; 6; 7; 8; 3; 0x8C; 100; 0; 200; 0; 44; 1; 0x41; 1; 1; 0; 2; 0; 3; 0; 0; 0; 0;
        0xFF; 0xFF; 0xFF; 4; 0; 0x01; 0x01; 0x20; 1; 0x30; 1; 0x40; 1]]
  | InfoType_Cache => [[1; 0xA9; 0x01; 0x00; 0x01; 0x04; 0x80; 0x21; 0x01; 0x20; 0x00; 10; 5; 4; 7; 0x00; 0x01; 0; 0; 0x04; 0; 0; 0x80]]
  | InfoType_SystemSlots => [[1; 0xA5; 5; 3; 4; 1; 0; 0x0C]; [1; 0xA5; 5; 3; 4; 1; 0; 0x0C; 1; 0; 0; 0; 0; 0]]
  | InfoType_BiosLanguage => [[2; 1; 0; 0; 0; 0; 0; 0; 0; 0; 0; 0; 0; 0; 0; 0; 0; 1]]
  | InfoType_SystemEventLog => [[0; 1; 0; 0; 16; 0; 4; 1; 0; 0; 0; 0; 0; 0; 0; 0; 0]]
  | InfoType_PhysicalMemoryArray => [[3; 3; 6; 0; 0; 0; 0x80; 0x34; 0x12; 4; 0; 0; 0; 0; 0; 8; 0; 0; 0]]
  | InfoType_MemoryError32 => [[3; 2; 2; 0; 0; 0; 0; 0; 0; 0; 0x80; 0; 0; 0; 0x80; 0; 0; 0; 0x80; 0]]
  | InfoType_MemoryArrayMappedAddress => [[0; 0; 0; 0; 0xFF; 0xFF; 0x7F; 0; 1; 0; 1; 0]]
  | InfoType_MemoryDeviceMappedAddress => [[0; 0; 0; 0; 0xFF; 0xFF; 0x7F; 0; 1; 0; 1; 0; 1; 1; 1; 0]]
  | InfoType_BuiltInPointingDevice => [[3; 4; 2; 0]]
  | InfoType_PortableBattery => [[1; 2; 0; 0; 3; 2; 0; 0; 0; 0; 0; 0; 0]]
  | _ => []
  end.

Definition alike_at (v w : SmbiosVersion) (i : InfoType) : Prop :=
  Forall (fun d => dispatch strict (at_version w (sample i d)) = renumbered_course w (dispatch strict (at_version v (sample i d)))) (samples i).

(* one version for each of the spans between the milestones of a type *)
Definition version_at (m : N * N) : SmbiosVersion := {| major := fst m; minor := snd m |}.
Definition spans (i : InfoType) : list (N * N) := (0, 0) :: milestones i.

Ltac sides v :=
  repeat match goal with
  | |- context [since v ?a ?b] => let E := fresh "S" in destruct (since v a b) eqn:E; [|]; try solve [contra]
  end.

Lemma spans_cover v i : exists m, In m (spans i) /\ same_side (version_at m) v (milestones i).
Proof.
  cut (exists m, In m (spans i) /\ forallb (fun '(a, b) => Bool.eqb (since (version_at m) a b) (since v a b)) (milestones i) = true).
  { intros [m [HI H]]. exists m. split; [exact HI|]. intros a b HM. apply since_same.
    rewrite forallb_forall in H. specialize (H (a, b) HM). apply Bool.eqb_prop in H. exact H. }
  exists (last (filter (fun '(a, b) => since v a b) (milestones i)) (0, 0)).
  destruct i; cbn [spans milestones filter forallb]; sides v; (split; [cbn; tauto|reflexivity]).
Qed.

Lemma renumbered_twice w v x : renumbered w (renumbered v x) = renumbered w x.
Proof. destruct x; reflexivity. Qed.
Lemma course_twice w v x : renumbered_course w (renumbered_course v x) = renumbered_course w x.
Proof. destruct x as [[x|e]| |]; cbn; try reflexivity. rewrite renumbered_twice. reflexivity. Qed.

Lemma alike_spans v w i m m' : same_side (version_at m) v (milestones i) -> same_side (version_at m') w (milestones i) ->
  alike_at v w i -> alike_at (version_at m) (version_at m') i.
Proof.
  intros H H' A. unfold alike_at in *. eapply Forall_impl; [|exact A]. cbv beta. intros d E.
  rewrite (dispatch_same strict (sample i d) _ _ H), (dispatch_same strict (sample i d) _ _ H'), !course_twice in E.
  set (x := dispatch strict (at_version (version_at m) (sample i d))) in *.
  assert (F : renumbered_course (version_at m') (dispatch strict (at_version (version_at m') (sample i d))) = 
    renumbered_course (version_at m') x).
  { apply (f_equal (renumbered_course (version_at m'))) in E. rewrite !course_twice in E. exact E. }
  rewrite <- F. apply dispatch_same. intros ? ? ?. reflexivity.
Qed.

Lemma spans_apart i m m' : In m (spans i) -> In m' (spans i) -> alike_at (version_at m) (version_at m') i ->
  forallb (fun '(a, b) => Bool.eqb (since (version_at m) a b) (since (version_at m') a b)) (milestones i) = true.
Proof.
  intros H H'.
  destruct i; cbn [spans milestones In] in H, H';
    repeat (destruct H as [<-|H]; [|]); try contradiction; repeat (destruct H' as [<-|H']; [|]); try contradiction;
    first [intros _; reflexivity|intros A; exfalso; cbn [samples] in A; unfold alike_at in A; cbn [samples] in A;
      first [pose proof (Forall_inv A) as B; vm_compute in B; discriminate B
            |pose proof (Forall_inv (Forall_inv_tail A)) as B; vm_compute in B; discriminate B]].
Qed.

Lemma told_apart v w i : alike_at v w i -> same_side v w (milestones i).
Proof.
  intros A. destruct (spans_cover v i) as [m [HM SM]]. destruct (spans_cover w i) as [m' [HM' SM']].
  pose proof (spans_apart i m m' HM HM' (alike_spans v w i m m' SM SM' A)) as E.
  rewrite forallb_forall in E. intros a b HI. specialize (E (a, b) HI). apply Bool.eqb_prop in E.
  apply since_same in E. rewrite <- (SM a b HI), <- (SM' a b HI). exact E.
Qed.

Lemma same_exactly i v w :
  (forall c r, info r = i -> dispatch c (at_version w r) = renumbered_course w (dispatch c (at_version v r))) <->
  same_side v w (milestones i).
Proof.
  split.
  - intros H. apply told_apart. apply Forall_forall. intros d _. apply H. reflexivity.
  - intros H c r <-. apply dispatch_same. exact H.
Qed.

(* the number of a type that has milestones *)
Definition code_of (i : InfoType) : N :=
  match i with
  | InfoType_Bios => 0 | InfoType_System => 1 | InfoType_Processor => 4 | InfoType_Cache => 7 | InfoType_SystemSlots => 9
  | InfoType_BiosLanguage => 13 | InfoType_SystemEventLog => 15 | InfoType_PhysicalMemoryArray => 16 | InfoType_MemoryError32 => 18
  | InfoType_MemoryArrayMappedAddress => 19 | InfoType_MemoryDeviceMappedAddress => 20 | InfoType_BuiltInPointingDevice => 21
  | InfoType_PortableBattery => 22 | _ => 127
  end.
(* an iterator that comes to a structure of the samples *)
Definition facing (i : InfoType) (d : list N) : Structures := {|
  smbios_version := {| major := 2; minor := 0 |}; smbios_len_ := 4 + len d + 8; idx := 0;
  buffer := [code_of i; 4 + len d; 7; 0] ++ d ++ [65; 0; 66; 67; 0; 68; 0; 0] |}.

Lemma facing_sample i d : In d (samples i) -> exists s', next_raw strict (facing i d) = Val (Some (Ok (sample i d)), s').
Proof.
  intros H. destruct i; cbn [samples In] in H;
    repeat (destruct H as [<-|H]; [eexists; vm_compute; reflexivity|]); contradiction H.
Qed.

Lemma milestone_of_type a b : In (a, b) all_milestones -> exists i, In (a, b) (milestones i).
Proof.
  intros H. cbn [all_milestones In] in H.
  repeat (destruct H as [H|H]; [apply pair_equal_spec in H as [<- <-]|]); [..|contradiction H].
  all: first
    [exists InfoType_SystemSlots; cbn; tauto|exists InfoType_Cache; cbn; tauto|exists InfoType_Processor; cbn; tauto
    |exists InfoType_Bios; cbn; tauto|exists InfoType_MemoryArrayMappedAddress; cbn; tauto
    |exists InfoType_PhysicalMemoryArray; cbn; tauto].
Qed.

Lemma tables_exactly v w :
  (forall c s, next c (announcing w s) = renumbered_step w (next c (announcing v s))) <-> same_side v w all_milestones.
Proof.
  split; [|intros H c s; exact (next_same c v w s H)].
  intros H a b HI. destruct (milestone_of_type a b HI) as [i HM]. revert HM. revert a b HI.
  cut (same_side v w (milestones i)); [intros S a b _ HM; exact (S a b HM)|].
  apply told_apart. apply Forall_forall. intros d HD. destruct (facing_sample i d HD) as [s' E].
  specialize (H strict (facing i d)). rewrite !next_announcing, E in H. cbv zeta in H.
  destruct (dispatch strict (at_version w (sample i d))) as [x| |], (dispatch strict (at_version v (sample i d))) as [y| |];
    cbn [obind renumbered_step] in H; try discriminate H; try reflexivity.
  apply (f_equal (fun z => match z with Val (Some q, _) => q | _ => x end)) in H. rewrite H. destruct y; reflexivity.
Qed.

Lemma from_last v w : from_version v 3 2 -> from_version w 3 2 -> same_side v w all_milestones.
Proof.
  intros H H' a b HI. cbn [all_milestones In] in HI.
  repeat (destruct HI as [HI|HI]; [apply pair_equal_spec in HI as [<- <-]; unfold from_version in *; lia|]); contradiction HI.
Qed.
