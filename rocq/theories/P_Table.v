(* Properties C09, C16 (continued), C61 and C62: whole tables, from the entry point to
   the last structure, in every build. *)
From Coq Require Import String.
From Coq Require Import ZArith Lia ZifyBool ZifyNat ZifyN.
From Verif Require Import Base G_Enums M_Raw M_Entry M_Bitfield M_Bios M_Enclosure M_Cache M_Strings M_PortableBattery M_Iter T_Data
  Spec S_Entry S_Iter S_Safety S_Table S_Builds L_Base L_Entry L_Iter L_Frame L_Table L_Builds P_Entry P_Iter P_System.
Local Open Scope N_scope.

(* C09, decoders that crash included: the items are those of the structures in order
   until a decoder crashes, and the iteration ends as the decoders do.  The announced
   length may be a few bytes too long; from version 3 on, where it is only a maximum,
   it may be longer by any amount if there is an End structure. *)
Theorem C09_runs_exactly : forall c e (ss : list encodable) rest l f,
  Forall encodable_ok ss -> announces (ep_to_version e) (ep_smbios_len e) ss ->
  all_bytes (table ss ++ rest) -> len (table ss ++ rest) + 260 <= 2 ^ 32 ->
  decode_all c (shown (ep_to_version e) ss rest) l f ->
  exists en, runs (next c) (structures e (table ss ++ rest)) l en /\ finish_of en = f.
Proof. exact runs_announced. Qed.
Print Assumptions C09_runs_exactly.
Theorem C09_decoding_has_a_result : forall c rs, exists l f, decode_all c rs l f.
Proof. exact decode_all_total. Qed.
Print Assumptions C09_decoding_has_a_result.

(* the table of P_Iter, announced with 4096 bytes, followed by rubbish; and a table
   whose second structure makes its decoder panic *)
Example C09_longer_example :
  announces (ep_to_version (ex_v3 4096)) (ep_smbios_len (ex_v3 4096)) ex_list /\ Forall encodable_ok ex_list /\
  (exists l, decode_all ex_cfg (shown (ep_to_version (ex_v3 4096)) ex_list [1; 2; 3]) l Finished /\ len l = 3) /\
  exists l, decode_all ex_cfg (shown (ep_to_version (ex_v2 12))
    [{| e_type := 200; e_handle := 7; e_body := []; e_strings := [] |};
     {| e_type := 14; e_handle := 7; e_body := []; e_strings := [] |}] []) l Crashed /\ len l = 1.
Proof.
  split; [right; split; [vm_compute; discriminate|]; split; [|vm_compute; discriminate]|].
  { eexists. split; [right; right; left; reflexivity|reflexivity]. }
  split; [exact ex_list_ok|]. split.
  - eexists. split; [repeat (eapply one_decoded; [vm_compute; reflexivity|]); apply none_left|reflexivity].
  - eexists. split; [eapply one_decoded; [vm_compute; reflexivity|]; apply one_panics; vm_compute; reflexivity|reflexivity].
Qed.

(* C16: for any buffer, well formed or not: if iterating over it comes to an end
   without complaining about unterminated strings, then bytes appended to it change
   nothing a caller sees. *)
Theorem C16_appended_bytes_irrelevant : forall c s l s' rest, flat_memory c = false -> sane s -> sane (longer s rest) ->
  runs (next c) s l (Exhausted s') -> (forall p, ~ In (Err (UnterminatedStrings p)) l) ->
  exists l', runs (next c) (longer s rest) l' (Exhausted (longer s' rest)) /\ map seen l' = map seen l.
Proof. intros c s l s' rest HF. exact (runs_longer c s l s' HF rest). Qed.
Print Assumptions C16_appended_bytes_irrelevant.

(* ... also where reads past a structure are tolerated, if there are none *)
Theorem C16_appended_bytes_any_memory : forall c c' s l s' rest, flat_memory c = false -> stricter c c' ->
  sane s -> sane (longer s rest) ->
  drains (next c) s l s' -> (forall p, ~ In (Err (UnterminatedStrings p)) l) ->
  exists l', drains (next c') (longer s rest) l' (longer s' rest) /\ map seen l' = map seen l.
Proof.
  intros c c' s l s' rest HF HC H1 H2 D HU.
  assert (DR : forall s l s', drains (next c) s l s' -> runs (next c) s l (Exhausted s')).
  { clear. intros s l s' D. induction D; [apply runs_none; assumption|eapply runs_some; eassumption]. }
  assert (RD : forall s l s', runs (next c) s l (Exhausted s') -> drains (next c) s l s').
  { clear. intros s l s' R. remember (Exhausted s') as e. revert Heqe.
    induction R; intros [= E]; subst; [apply drains_nil; assumption|eapply drains_cons; eauto]. }
  destruct (runs_longer c s l s' HF rest H1 H2 (DR _ _ _ D) HU) as [l' [R M]].
  exists l'. split; [|exact M]. apply (carries_drains (next c) (next c')); [apply carries_next; exact HC|]. apply RD, R.
Qed.
Print Assumptions C16_appended_bytes_any_memory.

(* the reservation is needed: what is appended may terminate the strings *)
Theorem C16_unterminated_refuted : exists l s', 
  sane (structures (ex_v2 9) [200; 4; 0; 0; 65; 0; 66]) /\ sane (longer (structures (ex_v2 9) [200; 4; 0; 0; 65; 0; 66]) [0; 0]) /\
  drains (next ex_cfg) (structures (ex_v2 9) [200; 4; 0; 0; 65; 0; 66]) l s' /\
  exists r s'', next ex_cfg (longer (structures (ex_v2 9) [200; 4; 0; 0; 65; 0; 66]) [0; 0]) = Val (Some (Ok (SOther r)), s'') /\
    l = [Err (UnterminatedStrings 0)].
Proof.
  do 2 eexists. split; [split; [apply all_bytes_dec; reflexivity|split; vm_compute; discriminate]|].
  split; [split; [apply all_bytes_dec; reflexivity|split; vm_compute; discriminate]|].
  split; [eapply drains_cons; [vm_compute; reflexivity|]; apply drains_nil; vm_compute; reflexivity|].
  do 2 eexists. split; vm_compute; reflexivity.
Qed.
Print Assumptions C16_unterminated_refuted.

(* a table with a structure that fails to decode *)
Example C16_appended_example : exists l s', flat_memory ex_cfg = false /\
  sane (structures (ex_v2 14) ex_bad_count) /\ sane (longer (structures (ex_v2 14) ex_bad_count) [1; 2]) /\
  runs (next ex_cfg) (structures (ex_v2 14) ex_bad_count) l (Exhausted s') /\ (forall p, ~ In (Err (UnterminatedStrings p)) l) /\ len l = 2.
Proof.
  do 2 eexists. split; [reflexivity|]. split; [split; [apply all_bytes_dec; reflexivity|split; vm_compute; discriminate]|].
  split; [split; [apply all_bytes_dec; reflexivity|split; vm_compute; discriminate]|].
  split; [eapply runs_some; [vm_compute; reflexivity|]; eapply runs_some; [vm_compute; reflexivity|]; apply runs_none; vm_compute; reflexivity|].
  split; [|reflexivity]. intros p [H|[H|[]]]; discriminate H.
Qed.

(* C61: an encoded entry point, behind any paragraphs without an anchor, is found and
   tells what was encoded. *)
Theorem C61_search_inverts_encoding : forall p a tail, announcement_ok a -> len p mod 16 = 0 ->
  (forall o k, ~ anchor_at p o k) ->
  S_Entry.layout_size (a_kind a) <= (S_Entry.layout_size (a_kind a) + len tail) mod 256 ->
  exists e, search (p ++ encode_entry a ++ tail) = Val (Ok e) /\ kind_of e = a_kind a /\
    ep_major e = a_major a /\ ep_minor e = a_minor a /\ ep_revision e = a_revision a /\
    ep_smbios_len e = a_length a /\ ep_smbios_address e = a_address a.
Proof. exact search_encoded. Qed.
Print Assumptions C61_search_inverts_encoding.

(* From the encoded entry point and the encoded table to the decoded structures. *)
Theorem C61_end_to_end : forall c p a tail ss rest l f, announcement_ok a -> len p mod 16 = 0 ->
  (forall o k, ~ anchor_at p o k) ->
  S_Entry.layout_size (a_kind a) <= (S_Entry.layout_size (a_kind a) + len tail) mod 256 ->
  let v := {| major := a_major a; minor := a_minor a |} in
  Forall encodable_ok ss -> announces v (a_length a) ss ->
  all_bytes (table ss ++ rest) -> len (table ss ++ rest) + 260 <= 2 ^ 32 ->
  decode_all c (shown v ss rest) l f ->
  exists e en, search (p ++ encode_entry a ++ tail) = Val (Ok e) /\
    runs (next c) (structures e (table ss ++ rest)) l en /\ finish_of en = f.
Proof.
  intros c p a tail ss rest l f OK HP NA HT v F AN HB HS D.
  destruct (search_encoded p a tail OK HP NA HT) as [e [E [_ [E1 [E2 [_ [E3 _]]]]]]].
  assert (EV : ep_to_version e = v) by (unfold ep_to_version, v; rewrite E1, E2; reflexivity).
  destruct (runs_announced c e ss rest l f) as [en [R FE]]; try assumption.
  - rewrite EV, E3. exact AN.
  - rewrite EV. exact D.
  - exists e, en. auto.
Qed.
Print Assumptions C61_end_to_end.

Definition ex_announcement (k : EntryPointFormat) : announcement := {|
  a_kind := k; a_major := 3; a_minor := 2; a_docrev := 1; a_revision := 1; a_max_structure := 200; a_length := 26;
  a_address := 0xE0000; a_count := 3; a_bcd := 0x32 |}.
(* one byte follows the entry point, so it has to start at least 31 bytes before a
   multiple of 256 *)
Example C61_example : forall k, announcement_ok (ex_announcement k) /\
  S_Entry.layout_size k <= (S_Entry.layout_size k + len [0]) mod 256 /\
  len ex_pre mod 16 = 0 /\ (forall o k, ~ anchor_at ex_pre o k) /\
  announces {| major := 3; minor := 2 |} 26 ex_list /\
  exists l, decode_all ex_cfg (shown {| major := 3; minor := 2 |} ex_list []) l Finished /\ len l = 3.
Proof.
  intros k. split; [destruct k; unfold announcement_ok; cbn; lia|]. split; [destruct k; vm_compute; discriminate|].
  split; [reflexivity|]. split; [apply (proj2 C06_example_prefix)|].
  split; [left; vm_compute; split; [discriminate|reflexivity]|].
  eexists. split; [repeat (eapply one_decoded; [vm_compute; reflexivity|]); apply none_left|reflexivity].
Qed.
(* the crate's fixture is the encoding of what it announces *)
Example C61_fixture : exists a rest, entry_bin = encode_entry a ++ rest /\ announcement_ok a /\ a_kind a = FmtV2.
Proof.
  exists {| a_kind := FmtV2; a_major := 2; a_minor := 7; a_docrev := 0; a_revision := value_at entry_bin 10 1;
    a_max_structure := value_at entry_bin 8 2; a_length := value_at entry_bin 22 2; a_address := value_at entry_bin 24 4;
    a_count := value_at entry_bin 28 2; a_bcd := value_at entry_bin 30 1 |}, (drop 31 entry_bin).
  split; [vm_compute; reflexivity|]. split; [|reflexivity]. unfold announcement_ok.
  repeat split; vm_compute; (reflexivity || discriminate).
Qed.

(* C62: what a build that checks for overflow, or a memory in which nothing may be
   read past a structure, returns, is returned in all others as well: by the decoders ... *)
Theorem C62_decoders_agree : forall c c' r x, stricter c c' -> dispatch c r = Val x -> dispatch c' r = Val x.
Proof. intros c c' r x H. apply carries_dispatch. exact H. Qed.
Print Assumptions C62_decoders_agree.
(* ... by whole iterations ... *)
Theorem C62_iterations_agree : forall c c' s l s', stricter c c' -> drains (next c) s l s' -> drains (next c') s l s'.
Proof. intros c c' s l s' H. apply (carries_drains (next c) (next c')). intros x. apply carries_next. exact H. Qed.
Print Assumptions C62_iterations_agree.
(* ... and by everything computed from a decoded structure. *)
Theorem C62_values_agree : forall c c', stricter c c' ->
  (forall w o r, carries (get c w o r) (get c' w o r)) /\
  (forall s, carries (RomSize_to_u64 c s) (RomSize_to_u64 c' s)) /\
  (forall s, carries (CacheSize_bytes c s) (CacheSize_bytes c' s)) /\
  (forall s, carries (CacheSize2_bytes c s) (CacheSize2_bytes c' s)) /\
  (forall d, carries (DesignCapacity_to_u64 c d) (DesignCapacity_to_u64 c' d)) /\
  (forall s, carries (ContainedElements_next c s) (ContainedElements_next c' s)) /\
  (forall s, carries (InstallableLanguages_next c s) (InstallableLanguages_next c' s)) /\
  (forall it, carries (iter_next c it) (iter_next c' it)) /\
  (forall it, carries (significants_next c it) (significants_next c' it)) /\
  (forall rv, carries (reserved_next c rv) (reserved_next c' rv)) /\
  (forall w l, carries (from_iter c w l) (from_iter c' w l)).
Proof.
  intros c c' H. repeat match goal with |- _ /\ _ => split end; intros.
  - apply carries_get; exact H.
  - apply carries_rom; exact H.
  - apply carries_cache; exact H.
  - apply carries_cache2; exact H.
  - apply carries_capacity; exact H.
  - apply carries_elements; exact H.
  - apply carries_languages; exact H.
  - apply carries_iter; exact H.
  - apply carries_significants; exact H.
  - apply carries_reserved; exact H.
  - apply carries_positions; exact H.
Qed.
Print Assumptions C62_values_agree.

(* The converse is false: an unchecked build returns where a checked one panics, a
   tolerant memory returns where a strict one does not. *)
Theorem C62_converse_refuted : exists c c' r x, stricter c c' /\ dispatch c' r = Val x /\ dispatch c r = Panic.
Proof.
  exists {| overflow_checks := true; flat_memory := false; pointer_width := W64 |}, {| overflow_checks := false; flat_memory := false; pointer_width := W64 |},
    (ex_struct 2 7 InfoType_GroupAssociations [] []). eexists.
  split; [split; auto|]. split; vm_compute; reflexivity.
Qed.
Print Assumptions C62_converse_refuted.

Example C62_example : stricter ex_strict ex_flat /\ stricter ex_strict {| overflow_checks := false; flat_memory := false; pointer_width := W64 |} /\
  exists x, dispatch ex_strict (ex_struct 2 7 InfoType_GroupAssociations [1; 4; 0; 0] []) = Val (Ok x).
Proof. split; [split; cbn; auto|]. split; [split; cbn; auto|]. eexists. vm_compute. reflexivity. Qed.
