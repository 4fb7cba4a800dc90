(* Property C100: several iterators at once, and copies of iterators.
   Vocabulary: S_Turns.v (user: any program over iterators and copies of them; run_user;
   expected; answers), Spec.v (drains, runs). *)
From Coq Require Import ZArith Lia ZifyBool ZifyNat ZifyN.
From Verif Require Import Base G_Enums M_Raw M_Entry M_Enclosure M_SystemSlots M_Strings M_GroupAssociations M_SystemEventLog M_Bitfield M_Iter M_Eq G_Eq
  Spec S_Iter S_Turns L_Base L_Eq L_GEq L_Iter L_Frame L_Turns P_Iter P_Lazy.
Local Open Scope N_scope.

(* Whatever the order of the calls and wherever copies are made: each iterator gives the answers
   it would give alone, and a copy gives what is left of its original. *)
Theorem C100_in_turn : forall S A B (next : S -> out (option A * S)) (p : user A B) pool fs,
  Forall2 (answers next) pool fs -> run_user next p pool = Val (expected p fs).
Proof. intros S A B next p pool fs. apply in_turn. Qed.
Print Assumptions C100_in_turn.
Theorem C100_one_sequence : forall S A (next : S -> out (option A * S)) s f g,
  answers next s f -> answers next s g -> forall n, f n = g n.
Proof. exact @answers_unique. Qed.
Print Assumptions C100_one_sequence.

(* Tables: for iterators, over one table or several, each of which a plain loop goes through, a
   program with any number of copies sees the items of those loops. *)
Theorem C100_structures : forall B c (p : user (res Structure) B) pool ls,
  Forall2 (fun s l => sane s /\ exists s', drains (next c) s l s') pool ls ->
  run_user (next c) p pool = Val (expected p (map (@nth_error _) ls)).
Proof.
  intros B c p pool ls H. apply in_turn. induction H as [|s l pool ls [S [s' D]] H IH]; cbn [map]; constructor; [|exact IH].
  exact (answers_structures c s l s' S D).
Qed.
Print Assumptions C100_structures.

(* And a program fails only where the plain loop over one of its tables fails in the same way. *)
Theorem C100_fails_alone : forall B c (p : user (res Structure) B) pool, (forall s, In s pool -> sane s) ->
  (run_user (next c) p pool = Panic -> exists s l, In s pool /\ runs (next c) s l Panicked) /\
  (run_user (next c) p pool = UB -> exists s l, In s pool /\ runs (next c) s l Undefined).
Proof. intros B c p pool. apply fails_alone. Qed.
Print Assumptions C100_fails_alone.

(* The lists inside structures that cannot fail: texts, group items, event log descriptors. *)
Theorem C100_texts : forall B (p : user text B) pool, exists fs,
  Forall2 (answers (lift_next strings_next)) pool fs /\ run_user (lift_next strings_next) p pool = Val (expected p fs).
Proof.
  intros B p pool. assert (K : exists fs, Forall2 (answers (lift_next strings_next)) pool fs).
  { induction pool as [|s pool [fs H]]; [exists []; constructor|].
    destruct (answers_total (lift_next strings_next) strings_next s (fun _ => eq_refl)) as [g G]. exists (g :: fs). constructor; assumption. }
  destruct K as [fs H]. exists fs. split; [exact H|]. apply in_turn, H.
Qed.
Print Assumptions C100_texts.
Theorem C100_group_items : forall B (p : user GroupItem B) pool, exists fs,
  Forall2 (answers (lift_next GroupItems_next)) pool fs /\ run_user (lift_next GroupItems_next) p pool = Val (expected p fs).
Proof.
  intros B p pool. assert (K : exists fs, Forall2 (answers (lift_next GroupItems_next)) pool fs).
  { induction pool as [|s pool [fs H]]; [exists []; constructor|].
    destruct (answers_total (lift_next GroupItems_next) GroupItems_next s (fun _ => eq_refl)) as [g G]. exists (g :: fs). constructor; assumption. }
  destruct K as [fs H]. exists fs. split; [exact H|]. apply in_turn, H.
Qed.
Print Assumptions C100_group_items.
Theorem C100_descriptors : forall B (p : user EventLogTypeDescriptor B) pool, exists fs,
  Forall2 (answers (lift_next EventLogTypeDescriptors_next)) pool fs /\ run_user (lift_next EventLogTypeDescriptors_next) p pool = Val (expected p fs).
Proof.
  intros B p pool. assert (K : exists fs, Forall2 (answers (lift_next EventLogTypeDescriptors_next)) pool fs).
  { induction pool as [|s pool [fs H]]; [exists []; constructor|].
    destruct (answers_total (lift_next EventLogTypeDescriptors_next) EventLogTypeDescriptors_next s (fun _ => eq_refl)) as [g G].
    exists (g :: fs). constructor; assumption. }
  destruct K as [fs H]. exists fs. split; [exact H|]. apply in_turn, H.
Qed.
Print Assumptions C100_descriptors.

(* Languages, in builds that wrap (with overflow checks the 256th call of next panics: C32). *)
Theorem C100_languages : forall B c (p : user text B) pool, overflow_checks c = false -> exists fs,
  Forall2 (answers (InstallableLanguages_next c)) pool fs /\ run_user (InstallableLanguages_next c) p pool = Val (expected p fs).
Proof.
  intros B c p pool O. assert (K : exists fs, Forall2 (answers (InstallableLanguages_next c)) pool fs).
  { induction pool as [|s pool [fs H]]; [exists []; constructor|].
    assert (T : exists f, forall s, InstallableLanguages_next c s = Val (f s)).
    { exists (fun s => match InstallableLanguages_next c s with Val x => x | _ => (None, s) end). intros t.
      unfold InstallableLanguages_next, u_add. rewrite O. destruct (_ <? _); reflexivity. }
    destruct T as [f T]. destruct (answers_total _ f s T) as [g G]. exists (g :: fs). constructor; assumption. }
  destruct K as [fs H]. exists fs. split; [exact H|]. apply in_turn, H.
Qed.
Print Assumptions C100_languages.

(* Those that can, where the plain loop does not: peer devices, contained elements, flags. *)
Theorem C100_peers : forall B (p : user Device B) pool ls,
  Forall2 (fun s l => exists s', drains PeerDevices_next s l s') pool ls ->
  run_user PeerDevices_next p pool = Val (expected p (map (@nth_error _) ls)).
Proof.
  intros B p pool ls H. apply in_turn. induction H as [|s l pool ls [s' D] H IH]; cbn [map]; constructor; [|exact IH].
  exact (answers_list _ s l s' C67_peers_finished D).
Qed.
Print Assumptions C100_peers.
Theorem C100_elements : forall B c (p : user ContainedElement B) pool ls,
  Forall2 (fun s l => exists s', drains (ContainedElements_next c) s l s') pool ls ->
  run_user (ContainedElements_next c) p pool = Val (expected p (map (@nth_error _) ls)).
Proof.
  intros B c p pool ls H. apply in_turn. induction H as [|s l pool ls [s' D] H IH]; cbn [map]; constructor; [|exact IH].
  exact (answers_list _ s l s' (C67_elements_finished c) D).
Qed.
Print Assumptions C100_elements.
Theorem C100_flags : forall B c (p : user _ B) pool ls,
  Forall2 (fun s l => exists s', drains (iter_next c) s l s') pool ls ->
  run_user (iter_next c) p pool = Val (expected p (map (@nth_error _) ls)).
Proof.
  intros B c p pool ls H. apply in_turn. induction H as [|s l pool ls [s' D] H IH]; cbn [map]; constructor; [|exact IH].
  exact (answers_list _ s l s' (C67_flags_finished c) D).
Qed.
Print Assumptions C100_flags.

(* Iterators that are equal by == give the same answers ... *)
Theorem C100_equal_iterators : forall c s t f, Structures_eq s t = true -> answers (next c) s f -> answers (next c) t f.
Proof.
  intros c s t f E H. unfold Structures_eq in E. destruct Structures_codec as [K _]. specialize (K s t [] []). rewrite !app_nil_r in K.
  apply K in E as [-> _]. exact H.
Qed.
Print Assumptions C100_equal_iterators.
(* ... but iterators that give the same answers need not be equal: == also compares the bytes
   that have been read and those that will not be. *)
Theorem C100_equal_answers_refuted : exists c s t f, sane s /\ sane t /\ answers (next c) s f /\ answers (next c) t f /\ Structures_eq s t = false.
Proof.
  exists ex_cfg, (structures (ex_v2 0) []), (structures (ex_v2 0) [1]), (fun _ => None).
  assert (S : sane (structures (ex_v2 0) []) /\ sane (structures (ex_v2 0) [1])).
  { split; (split; [apply all_bytes_dec; reflexivity|split; vm_compute; discriminate]). }
  split; [apply S|]. split; [apply S|].
  split; [apply answers_nones; apply (none_final ex_cfg (structures (ex_v2 0) [])); [apply S|reflexivity]|].
  split; [apply answers_nones; apply (none_final ex_cfg (structures (ex_v2 0) [1])); [apply S|reflexivity]|]. reflexivity.
Qed.
Print Assumptions C100_equal_answers_refuted.

(* ------------------------------------------------------------------ examples *)

(* an item, a copy, all the rest of the copy, and then the original again *)
Definition ex_user : user (res Structure) (list (option (res Structure))) :=
  AskNext 0 (fun a => MakeCopy 0 (AskNext 1 (fun b => AskNext 1 (fun d => AskNext 1 (fun e => AskNext 0 (fun f => Finish [a; b; d; e; f])))))).
Example C100_example : exists x y z s',
  let s := structures (ex_v3 26) (table ex_list) in
  sane s /\ drains (next ex_cfg) s [x; y; z] s' /\ x <> y /\ y <> z /\
  expected ex_user [nth_error [x; y; z]] = [Some x; Some y; Some z; None; Some y] /\
  run_user (next ex_cfg) ex_user [s] = Val [Some x; Some y; Some z; None; Some y].
Proof.
  do 4 eexists. cbv zeta. split; [split; [apply all_bytes_dec; vm_compute; reflexivity|split; vm_compute; discriminate]|].
  split; [do 3 (eapply drains_cons; [vm_compute; reflexivity|]); eapply drains_nil; vm_compute; reflexivity|].
  split; [discriminate|]. split; [discriminate|]. split; [reflexivity|]. vm_compute. reflexivity.
Qed.
(* a table on which the loop fails *)
Example C100_fails_example : exists l, sane (structures (ex_v2 100) [200; 3; 0; 0; 0; 0]) /\
  run_user (next ex_cfg) ex_user [structures (ex_v2 100) [200; 3; 0; 0; 0; 0]] = Panic /\
  runs (next ex_cfg) (structures (ex_v2 100) [200; 3; 0; 0; 0; 0]) l Panicked.
Proof.
  exists []. split; [split; [apply all_bytes_dec; reflexivity|split; vm_compute; discriminate]|].
  split; [vm_compute; reflexivity|]. constructor. vm_compute. reflexivity.
Qed.
