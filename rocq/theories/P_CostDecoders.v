(* Property C101: decoding a whole table takes linear work, the lookups of strings counted in;
   going through the languages of a structure does not.
   The counting versions of the decoders are in M_CostDecoders. *)
From Coq Require Import ZArith Lia ZifyBool ZifyNat ZifyN.
From Verif Require Import Base G_Enums M_Raw M_Strings M_Iter M_Cost M_CostDecoders T_Data Spec S_Iter S_Cost S_CostDecoders
  L_Base L_Iter L_Frame L_Cost L_CostDecoders P_Iter.
Local Open Scope N_scope.

Theorem C101_counts_the_model :
  (forall c r, fst (dispatch_counted c r) = dispatch c r) /\
  (forall c s, fst (next_counted c s) = next c s) /\
  (forall n s, fst (collect_counted n s) = strings_collect n s) /\
  (forall c l, fst (InstallableLanguages_next_counted c l) = InstallableLanguages_next c l).
Proof.
  split; [exact dispatch_erase|]. split; [exact next_erase|]. split; [exact collect_erase|exact languages_erase].
Qed.
Print Assumptions C101_counts_the_model.

(* A decoder looks up at most as many strings as the table says, each byte of the string area
   at most twice for each of them; it is never more than seven. *)
Theorem C101_decoder : forall c r,
  snd (dispatch_counted c r) <= N.of_nat (lookups (info r)) * (2 * len (strings r)) /\ (lookups (info r) <= 7)%nat.
Proof. intros c r. split; [exact (dispatch_costs c r)|apply lookups_at_most]. Qed.
Print Assumptions C101_decoder.

(* All calls of next together, framing and decoding, take at most 15 steps for each byte of the
   buffer, whatever is in it and whatever length was announced. *)
Theorem C101_iteration : forall c s, sane s ->
  (exists n, labour c s n) /\ forall n, labour c s n -> n <= 15 * (len (buffer s) - idx s).
Proof. intros c s S. split; [now apply labour_exists|]. intros n. now apply labour_linear. Qed.
Print Assumptions C101_iteration.

(* One call that returns an item and goes on takes at most 15 steps for each byte it goes forward. *)
Theorem C101_call : forall c s x s', sane s -> next c s = Val (Some x, s') ->
  idx s < idx s' -> snd (next_counted c s) <= 15 * (idx s' - idx s).
Proof.
  intros c s x s' S E H. destruct (next_item_at_most c s x s' S E) as [_ [L| ->]]; [exact L|]. cbn in H. lia.
Qed.
Print Assumptions C101_call.

(* Going through all strings of a structure takes two steps for each byte of the area. *)
Theorem C101_strings : forall n s, snd (collect_counted n s) <= 2 * (len (bytes s) - start s).
Proof. exact collect_count. Qed.
Print Assumptions C101_strings.

(* Going through the languages of a structure looks each one up from the first string on: at most
   the steps of one lookup for each of at most 256 calls. *)
Theorem C101_languages : forall c l n,
  overflow_checks c = true \/ (forall t, find_string (il_structure l) 255 <> Ok t) -> il_index l <= 255 ->
  browsing c l n -> n <= (256 - il_index l) * (2 * len (strings (il_structure l))).
Proof. exact browsing_at_most. Qed.
Print Assumptions C101_languages.

(* And that is not linear: k names of one letter make an area of 2k+1 bytes and take
   3k(k+1)/2 + 3k + 1 steps. No factor below 192 would do. *)
Theorem C101_languages_linear_refuted :
  (forall c k, k <= 253 -> exists r n, strings r = letters k /\ len (strings r) = 2 * k + 1 /\
    browsing c (InstallableLanguages_new r) n /\ 2 * n = 3 * k * (k + 1) + 2 * (3 * k + 1)) /\
  (forall a, (forall c r n, browsing c (InstallableLanguages_new r) n -> n <= a * len (strings r)) -> 192 <= a).
Proof.
  assert (M : forall c k, k <= 253 -> exists r n, strings r = letters k /\ len (strings r) = 2 * k + 1 /\
    browsing c (InstallableLanguages_new r) n /\ 2 * n = 3 * k * (k + 1) + 2 * (3 * k + 1)).
  { intros c k K.
    set (r := {| version := {| major := 2; minor := 7 |}; info := InfoType_BiosLanguage; length_ := 22; handle := 0;
                 data := repeat 0 18; strings := letters k; after := letters k |}).
    destruct (letters_browsing c r k eq_refl K (N.to_nat k) 1 ltac:(lia) ltac:(lia)) as [n [B Q]].
    exists r, n. split; [reflexivity|]. split; [|split; [exact B|lia]].
    cbn [strings r]. unfold letters. rewrite len_app, letters_len. change (len [0]) with 1. lia. }
  split; [exact M|]. intros a H. destruct (M ex_cfg 253 ltac:(lia)) as [r [n [_ [L [B Q]]]]].
  specialize (H _ _ _ B). lia.
Qed.
Print Assumptions C101_languages_linear_refuted.

(* The table of lookups is exact: with one string of 20 letters, and every byte of the formatted
   area naming it, each decoder takes 41 steps for each lookup. *)
Definition ex_lookups (n : nat) (i : InfoType) : RawStructure :=
  {| version := {| major := 3; minor := 3 |}; info := i; length_ := 4 + N.of_nat n; handle := 0;
     data := repeat 1 n; strings := repeat 65 20 ++ [0; 0]; after := repeat 65 20 ++ [0; 0] |}.
Example C101_lookups_example :
  Forall (fun i => snd (dispatch_counted ex_cfg (ex_lookups 96 i)) = 41 * N.of_nat (lookups i) /\
                   (exists x, dispatch ex_cfg (ex_lookups 96 i) = Val (Ok x)))
    [InfoType_Bios; InfoType_System; InfoType_BaseBoard; InfoType_Enclosure; InfoType_Processor; InfoType_Cache;
     InfoType_PortConnector; InfoType_SystemSlots; InfoType_GroupAssociations; InfoType_MemoryDevice] /\
  snd (dispatch_counted ex_cfg (ex_lookups 22 InfoType_PortableBattery)) = 41 * N.of_nat (lookups InfoType_PortableBattery) /\
  (* counting looks at the second zero, too *)
  snd (dispatch_counted ex_cfg (ex_lookups 22 InfoType_SystemConfigurationOptions)) = 42.
Proof. split; [repeat constructor; try (vm_compute; reflexivity); eexists; vm_compute; reflexivity|split; vm_compute; reflexivity]. Qed.
(* So no smaller number of lookups would do for any of these types. *)
Theorem C101_lookups_needed : forall i,
  In i [InfoType_Bios; InfoType_System; InfoType_BaseBoard; InfoType_Enclosure; InfoType_Processor; InfoType_Cache;
     InfoType_PortConnector; InfoType_SystemSlots; InfoType_GroupAssociations; InfoType_MemoryDevice;
     InfoType_PortableBattery; InfoType_SystemConfigurationOptions] ->
  exists c r, info r = i /\ forall k, snd (dispatch_counted c r) <= k * (2 * len (strings r)) -> N.of_nat (lookups i) <= k.
Proof.
  assert (Q : forall n i m, snd (dispatch_counted ex_cfg (ex_lookups n i)) = m -> 44 * N.of_nat (lookups i) < m + 44 ->
    exists c r, info r = i /\ forall k, snd (dispatch_counted c r) <= k * (2 * len (strings r)) -> N.of_nat (lookups i) <= k).
  { intros n i m E L. exists ex_cfg, (ex_lookups n i). split; [reflexivity|]. intros k. rewrite E.
    change (2 * len (strings (ex_lookups n i))) with 44. lia. }
  intros i H. do 10 (destruct H as [<-|H]; [eapply (Q 96%nat); vm_compute; reflexivity|]).
  do 2 (destruct H as [<-|H]; [eapply (Q 22%nat); vm_compute; reflexivity|]). destruct H.
Qed.
Print Assumptions C101_lookups_needed.
(* a port connector with the strings AB and C: 5 turns to cut it out, 5 and 8 steps for its strings *)
Definition ex_port_table : list N := [8; 9; 1; 0; 1; 2; 2; 2; 3; 65; 66; 0; 67; 0; 0].
Example C101_example :
  sane (structures (ex_v2 15) ex_port_table) /\
  labour ex_cfg (structures (ex_v2 15) ex_port_table) 18 /\
  exists x s, next ex_cfg (structures (ex_v2 15) ex_port_table) = Val (Some (Ok x), s) /\ idx s = 15.
Proof.
  split; [apply sane_structures; [apply all_bytes_dec; vm_compute; reflexivity|vm_compute; discriminate]|]. split.
  - change 18 with (18 + 0). eapply labour_item; [vm_compute; reflexivity|]. eapply labour_end. vm_compute. reflexivity.
  - do 2 eexists. split; vm_compute; reflexivity.
Qed.
Example C101_languages_example :
  browsing ex_cfg (InstallableLanguages_new {| version := {| major := 2; minor := 7 |}; info := InfoType_BiosLanguage;
    length_ := 22; handle := 0; data := repeat 0 18; strings := [65; 0; 66; 0; 0]; after := [] |}) 16.
Proof.
  change 16 with (3 + (6 + 7)). eapply browsing_item; [vm_compute; reflexivity|].
  eapply browsing_item; [vm_compute; reflexivity|]. eapply browsing_end. vm_compute. reflexivity.
Qed.
