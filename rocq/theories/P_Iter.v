(* Properties C09-C17: cutting a table into structures.
   Vocabulary: Spec.v (drains, runs, none_forever) and S_Iter.v (the table format:
   framed, here, encode, table, shown; what a caller sees: seen). *)
From Coq Require Import ZArith Lia ZifyBool ZifyNat ZifyN.
From Verif Require Import Base G_Enums M_Raw M_Entry M_Strings M_Iter T_Data Spec S_Iter L_Base L_Iter L_After L_Frame.
Local Open Scope N_scope.

(* an entry point of version 2.7 or 3.2 announcing a table of n bytes *)
Definition ex_v2 (n : N) : EntryPoint := V2 {|
  v2_signature := 0; v2_checksum := 0; v2_len := 31; v2_major := 2; v2_minor := 7; v2_struct_max := 0;
  v2_revision := 0; v2_formatted := []; v2_dmi_signature := []; v2_dmi_checksum := 0;
  v2_smbios_len := n; v2_smbios_address := 0; v2_smbios_count := 0; v2_bcd_revision := 0 |}.
Definition ex_v3 (n : N) : EntryPoint := V3 {|
  v3_signature := []; v3_checksum := 0; v3_len := 24; v3_major := 3; v3_minor := 2; v3_docrev := 0;
  v3_revision := 0; v3_reserved := 0; v3_smbios_len_max := n; v3_smbios_address := 0 |}.
Definition ex_cfg : cfg := {| overflow_checks := true; flat_memory := false; pointer_width := W64 |}.

(* three structures: OEM strings, an OEM type, end of table *)
Definition ex_list : list encodable := [
  {| e_type := 11; e_handle := 0x1234; e_body := [2]; e_strings := [[65; 66]; [67]] |};
  {| e_type := 200; e_handle := 7; e_body := [0; 0; 9]; e_strings := [] |};
  {| e_type := 127; e_handle := 0xFEFF; e_body := []; e_strings := [] |} ].

Lemma ex_list_ok : Forall encodable_ok ex_list.
Proof.
  repeat constructor; cbn; try lia; try discriminate; intros H; repeat destruct H as [H|H]; try discriminate; exact H.
Qed.

(* C09: iterating over an encoded table yields the decoded structures in order. *)
Theorem C09_iteration_inverts_encoding : forall c e (ss : list encodable) rest items,
  Forall encodable_ok ss -> ep_smbios_len e = len (table ss) ->
  all_bytes (table ss ++ rest) -> len (table ss ++ rest) + 260 <= 2 ^ 32 ->
  Forall2 (fun r x => dispatch c r = Val x) (shown (ep_to_version e) ss rest) items ->
  exists s', drains (next c) (structures e (table ss ++ rest)) items s' /\ next c s' = Val (None, s').
Proof. exact drains_table. Qed.
Print Assumptions C09_iteration_inverts_encoding.

Example C09_example :
  let rest := [127; 4; 1; 2; 0; 0] in
  exists items,
  Forall encodable_ok ex_list /\ ep_smbios_len (ex_v2 26) = len (table ex_list) /\
  all_bytes (table ex_list ++ rest) /\ len (table ex_list ++ rest) + 260 <= 2 ^ 32 /\
  Forall2 (fun r x => dispatch ex_cfg r = Val x) (shown (ep_to_version (ex_v2 26)) ex_list rest) items /\ len items = 3.
Proof.
  eexists. split; [exact ex_list_ok|]. split; [vm_compute; reflexivity|].
  split; [apply all_bytes_dec; vm_compute; reflexivity|]. split; [vm_compute; discriminate|].
  split; [repeat constructor|reflexivity].
Qed.

(* C10: a returned structure is a contiguous piece of the buffer at the current
   position, and the next call starts right after it. *)
Theorem C10_framing_sound : forall c s x s',
  sane s -> next c s = Val (Some (Ok x), s') ->
  exists r, framed (smbios_version s) (buffer s) (idx s) r /\ dispatch c r = Val (Ok x) /\
            idx s' = idx s + extent r /\ buffer s' = buffer s.
Proof.
  intros c s x s' HS H. destruct (success_moves c s x s' HS H) as [r [HR [D K]]].
  exists r. split; [apply HR|]. split; [exact D|]. destruct K as [[_ [_ ->]]|[_ ->]]; split; reflexivity.
Qed.
Print Assumptions C10_framing_sound.

(* At most one structure is framed at a position. *)
Theorem C10_framing_unique : forall v (buf : list N) pos r1 r2,
  framed v buf pos r1 -> framed v buf pos r2 -> r1 = r2.
Proof. exact framed_fun. Qed.
Print Assumptions C10_framing_unique.

Example C10_example : exists x s', sane (structures (ex_v3 26) (table ex_list)) /\
  next ex_cfg (structures (ex_v3 26) (table ex_list)) = Val (Some (Ok x), s') /\ idx s' = 11.
Proof.
  do 2 eexists. split; [apply sane_structures; [apply all_bytes_dec; vm_compute; reflexivity|vm_compute; discriminate]|].
  split; [vm_compute; reflexivity|reflexivity].
Qed.

(* Buffers of 4 GiB and more: the string area still ends at the first double NUL, but
   its length is cut to 32 bits. *)
Lemma long_area c s r s' : all_bytes (buffer s) -> idx s + 260 <= 2 ^ 32 -> next_raw c s = Val (Some (Ok r), s') ->
  exists area post, drop (idx s + length_ r) (buffer s) = area ++ post /\ string_area area /\
    strings r = take (len area mod 2 ^ 32) area /\ idx s' = idx s + length_ r + len area mod 2 ^ 32 /\
    data r = take (length_ r - 4) (drop (idx s + 4) (buffer s)).
Proof.
  intros Hb Hi. unfold next_raw, size_of_header. unfold u_add at 1.
  destruct (N.ltb_spec (idx s + 4) (2 ^ 32)); [|lia]. cbn [obind].
  destruct (N.ltb_spec (smbios_len_ s) (idx s + 4)) as [H1|H1]; [discriminate|].
  unfold slice_index_from, slice_get_from. destruct (N.leb_spec (idx s) (len (buffer s))) as [H2|H2]; [|discriminate].
  cbn [obind]. destruct (N.ltb_spec (len (drop (idx s) (buffer s))) 4) as [H3|H3]; [discriminate|].
  rewrite len_drop in H3.
  destruct (header_at (buffer s) (idx s)) as [pre [kind [l [h0 [h1 [post [EB EL]]]]]]]; [lia|].
  assert (ED : drop (idx s) (buffer s) = [kind; l; h0; h1] ++ post) by (rewrite EB; apply drop_app_exact; lia).
  rewrite ED.
  replace (at_ 1 1 ([kind; l; h0; h1] ++ post)) with l by (symmetry; apply N.add_0_r).
  assert (Hl : l < 256).
  { rewrite EB in Hb. apply all_bytes_app in Hb. destruct Hb as [_ Hb].
    inversion Hb as [|? ? _ Hb2]. inversion Hb2; assumption. }
  unfold u_add at 1. destruct (N.ltb_spec (idx s + l) (2 ^ 32)); [|lia]. cbn [obind].
  destruct (N.leb_spec (smbios_len_ s) (idx s + l)) as [H4|H4]; [discriminate|].
  destruct (N.leb_spec (idx s + l) (len (buffer s))) as [H5|H5]; [|discriminate]. cbn [obind].
  destruct (find_nulnul (drop (idx s + l) (buffer s))) as [t|] eqn:EN; [|discriminate].
  unfold find_nulnul in EN. apply find_nulnul_from_some in EN. destruct EN as [x [y [EX [-> A]]]].
  assert (LA : 0 + len x + 1 + 1 = len (x ++ [0; 0])) by (lens; lia).
  unfold u_add at 1. destruct (N.ltb_spec (idx s + 4) (2 ^ 32)); [|lia]. cbn [obind].
  unfold slice_index at 1, slice_get.
  destruct ((idx s + 4 <=? idx s + l) && (idx s + l <=? len (buffer s))) eqn:D; [|discriminate]. cbn [obind].
  replace (idx s + l - (idx s + 4)) with (l - 4) by lia.
  unfold cast. rewrite LA. set (m := len (x ++ [0; 0]) mod 2 ^ 32).
  assert (HM : m < 2 ^ 32) by (apply N.mod_lt; discriminate).
  assert (HM2 : m <= len (x ++ [0; 0])) by (apply N.mod_le; discriminate).
  destruct (u_add c 32 (idx s + l) m) as [e| |] eqn:EU; [|discriminate..]. cbn [obind].
  unfold slice_index, slice_get. destruct ((idx s + l <=? e) && (e <=? len (buffer s))) eqn:D2; [|discriminate]. cbn [obind].
  assert (EE : e = idx s + l + m).
  { unfold u_add in EU. destruct (N.ltb_spec (idx s + l + m) (2 ^ 32)) as [|OV]; [congruence|].
    destruct (overflow_checks c); [discriminate|]. injection EU as <-. exfalso.
    apply andb_true_iff in D2. destruct D2 as [D2 _]. apply N.leb_le in D2.
    assert ((idx s + l + m) mod 2 ^ 32 = idx s + l + m - 2 ^ 32).
    { symmetry. apply (N.mod_unique _ _ 1); lia. }
    lia. }
  subst e. intros E. injection E as <- <-. cbn [length_ strings idx data].
  exists (x ++ [0; 0]), y. split; [rewrite <- app_assoc; exact EX|]. split; [exact A|]. split; [|split; reflexivity].
  replace (idx s + l + m - (idx s + l)) with m by lia. rewrite EX, app_assoc.
  rewrite take_app_le by lia. reflexivity.
Qed.
Theorem C10_long_string_area : forall c s r s', all_bytes (buffer s) -> idx s + 260 <= 2 ^ 32 ->
  next_raw c s = Val (Some (Ok r), s') ->
  exists area post, drop (idx s + length_ r) (buffer s) = area ++ post /\ string_area area /\
    strings r = take (len area mod 2 ^ 32) area /\ idx s' = idx s + length_ r + len area mod 2 ^ 32 /\
    data r = take (length_ r - 4) (drop (idx s + 4) (buffer s)).
Proof. exact long_area. Qed.
Print Assumptions C10_long_string_area.

(* C11: from every state, calling next over and over comes to an end; every item
   but the last takes at least six bytes of the table. *)
Theorem C11_iteration_terminates : forall c s, sane s ->
  exists l e, runs (next c) s l e /\ (l = [] \/ 6 * (len l - 1) + 4 <= smbios_len_ s - idx s).
Proof. exact runs_exists. Qed.
Print Assumptions C11_iteration_terminates.

(* There is only one way the calls can go. *)
Theorem C11_iteration_deterministic : forall c s l1 e1 l2 e2,
  runs (next c) s l1 e1 -> runs (next c) s l2 e2 -> l1 = l2 /\ e1 = e2.
Proof. intros c s l1 e1 l2 e2. apply runs_fun. Qed.
Print Assumptions C11_iteration_deterministic.

Example C11_example : sane (structures (ex_v2 1000) (table ex_list)) /\ sane (structures (ex_v2 2736) dmi_bin).
Proof. split; (apply sane_structures; [apply all_bytes_dec; vm_compute; reflexivity|vm_compute; discriminate]). Qed.

(* C12: None is final, framing errors are final, decoding errors are not. *)
Theorem C12_none_is_final : forall c s s',
  sane s -> next c s = Val (None, s') -> none_forever (next c) s'.
Proof. exact none_final. Qed.
Print Assumptions C12_none_is_final.

Theorem C12_framing_error_is_final : forall c s e s',
  sane s -> next c s = Val (Some (Err e), s') -> framing_error e -> none_forever (next c) s'.
Proof. exact framing_final. Qed.
Print Assumptions C12_framing_error_is_final.

Theorem C12_decoding_error_moves_on : forall c s e s',
  sane s -> next c s = Val (Some (Err e), s') -> ~ framing_error e ->
  exists r, here s r /\ s' = moved_to (idx s + extent r) s.
Proof. exact decode_error_moves. Qed.
Print Assumptions C12_decoding_error_moves_on.

Theorem C12_success_moves_on : forall c s x s',
  sane s -> next c s = Val (Some (Ok x), s') ->
  exists r, here s r /\ dispatch c r = Val (Ok x) /\
  ((3 <= major (smbios_version s) /\ info r = InfoType_End /\ s' = stopped_at (idx s + extent r) s) \/
   (~ (3 <= major (smbios_version s) /\ info r = InfoType_End) /\ s' = moved_to (idx s + extent r) s)).
Proof. exact success_moves. Qed.
Print Assumptions C12_success_moves_on.

(* a configuration-options structure whose count is wrong, then an OEM structure;
   and a table whose declared length cuts the structure *)
Definition ex_bad_count : list N := [12; 5; 0; 0; 3; 65; 0; 0; 200; 4; 0; 0; 0; 0].
Example C12_example :
  (exists s1 r s2, next ex_cfg (structures (ex_v2 14) ex_bad_count) =
      Val (Some (Err (InvalidStringIndex InfoType_SystemConfigurationOptions 0 3)), s1) /\
      next ex_cfg s1 = Val (Some (Ok (SOther r)), s2) /\ idx s2 = 14) /\
  (exists s1, next ex_cfg (structures (ex_v2 5) ex_bad_count) = Val (Some (Err (BadSize 0 5)), s1)) /\
  (exists s1, next ex_cfg (structures (ex_v2 6) [200; 4; 0; 0; 65; 0; 66]) = Val (Some (Err (UnterminatedStrings 0)), s1)) /\
  (exists s1, next ex_cfg (structures (ex_v2 3) ex_bad_count) = Val (None, s1)).
Proof.
  split; [do 3 eexists; split; [vm_compute; reflexivity|]; split; [vm_compute; reflexivity|reflexivity]|].
  repeat split; eexists; vm_compute; reflexivity.
Qed.

(* C13: from version 3 on the End structure is returned, and nothing after it. *)
Theorem C13_end_is_returned_and_stops_v3 : forall c s r,
  sane s -> here s r -> info r = InfoType_End -> 3 <= major (smbios_version s) ->
  exists s', next c s = Val (Some (Ok (SOther r)), s') /\ none_forever (next c) s'.
Proof. exact end_v3. Qed.
Print Assumptions C13_end_is_returned_and_stops_v3.

Theorem C13_end_is_last_v3 : forall c s l e,
  sane s -> 3 <= major (smbios_version s) -> runs (next c) s l e ->
  forall l1 r l2, l = l1 ++ Ok (SOther r) :: l2 -> info r = InfoType_End ->
  l2 = [] /\ exists s', e = Exhausted s'.
Proof. exact end_last. Qed.
Print Assumptions C13_end_is_last_v3.

(* Before version 3 it is returned like any other structure and iteration goes on. *)
Theorem C13_end_does_not_stop_v2 : forall c s r,
  sane s -> here s r -> info r = InfoType_End -> major (smbios_version s) < 3 ->
  next c s = Val (Some (Ok (SOther r)), moved_to (idx s + extent r) s).
Proof. exact end_v2. Qed.
Print Assumptions C13_end_does_not_stop_v2.

(* End followed by an OEM structure: one item in version 3, two in version 2 *)
Definition ex_end : list N := [127; 4; 0; 0; 0; 0; 200; 4; 0; 0; 0; 0].
Example C13_example :
  (exists r, here (structures (ex_v3 12) ex_end) r /\ info r = InfoType_End /\
             here (structures (ex_v2 12) ex_end) {| version := {| major := 2; minor := 7 |}; info := info r; length_ := 4;
               handle := 0; data := []; strings := [0; 0]; after := after r |}) /\
  (exists l s', drains (next ex_cfg) (structures (ex_v3 12) ex_end) l s' /\ len l = 1) /\
  (exists l s', drains (next ex_cfg) (structures (ex_v2 12) ex_end) l s' /\ len l = 2).
Proof.
  assert (A : string_area [0; 0]).
  { exact (encode_strings_area [] (Forall_nil _)). }
  split.
  { exists {| version := {| major := 3; minor := 2 |}; info := InfoType_End; length_ := 4; handle := 0; data := [];
              strings := [0; 0]; after := [0; 0; 200; 4; 0; 0; 0; 0] |}.
    split; [|split; [reflexivity|]]; (split; [|split; vm_compute; (reflexivity || discriminate)]);
      exists [], [200; 4; 0; 0; 0; 0], 127, 0, 0; repeat (split; [reflexivity || exact A|]); reflexivity. }
  split; do 2 eexists; (split; [|shelve]).
  - eapply drains_cons; [vm_compute; reflexivity|]. apply drains_nil. vm_compute; reflexivity.
  - eapply drains_cons; [vm_compute; reflexivity|]. eapply drains_cons; [vm_compute; reflexivity|].
    apply drains_nil. vm_compute; reflexivity.
  Unshelve. all: reflexivity.
Qed.

(* C14: exactly when one call panics, and when it reads past the buffer. *)
Theorem C14_panic_exactly : forall c s, sane s ->
  (next c s = Panic <-> framing_panics s \/ exists r, here s r /\ dispatch c r = Panic).
Proof. exact next_panic_iff. Qed.
Print Assumptions C14_panic_exactly.

Theorem C14_overread_exactly : forall c s, sane s ->
  (next c s = UB <-> framing_overreads s \/ exists r, here s r /\ dispatch c r = UB).
Proof. exact next_ub_iff. Qed.
Print Assumptions C14_overread_exactly.

(* The claim "iteration never panics nor reads past the buffer" is false: a table
   announced longer than the buffer, a cut header, a length below four. *)
Theorem C14_never_crashes_refuted : exists (b1 b2 b3 : list N),
  all_bytes b1 /\ all_bytes b2 /\ all_bytes b3 /\
  (exists x s', next ex_cfg (structures (ex_v2 100) b1) = Val (Some (Ok x), s') /\ next ex_cfg s' = UB) /\
  next ex_cfg (structures (ex_v2 100) b2) = Panic /\
  next ex_cfg (structures (ex_v2 100) b3) = Panic.
Proof.
  exists [200; 4; 0; 0; 0; 0; 200; 4; 0], [200; 9; 0; 0; 0; 0], [200; 3; 0; 0; 0; 0].
  repeat (split; [apply all_bytes_dec; vm_compute; reflexivity|]).
  split; [do 2 eexists; split; [vm_compute; reflexivity|vm_compute; reflexivity]|]. split; vm_compute; reflexivity.
Qed.
Print Assumptions C14_never_crashes_refuted.

Example C14_example : framing_panics (structures (ex_v2 100) [200; 3; 0; 0; 0; 0]) /\
  framing_overreads (structures (ex_v2 100) [200; 4; 0]).
Proof.
  split.
  - split; [vm_compute; discriminate|]. right. exists 3. split; [reflexivity|]. split; [vm_compute; discriminate|].
    split; [vm_compute; reflexivity|]. right. split; [lia|]. exists [0], []. vm_compute. reflexivity.
  - split; [vm_compute; discriminate|]. split; [vm_compute; discriminate|vm_compute; reflexivity].
Qed.

(* C15: header and formatted area lie inside the declared table length ... *)
Theorem C15_formatted_area_inside : forall c s x s',
  sane s -> next c s = Val (Some (Ok x), s') ->
  exists r, framed (smbios_version s) (buffer s) (idx s) r /\ dispatch c r = Val (Ok x) /\
            idx s + 4 <= smbios_len_ s /\ idx s + length_ r < smbios_len_ s.
Proof.
  intros c s x s' HS H. destruct (success_moves c s x s' HS H) as [r [[H1 [H2 H3]] [D _]]]. exists r. auto.
Qed.
Print Assumptions C15_formatted_area_inside.

(* ... but the strings need not: here the table has 6 bytes, and the structure's
   only string is read from byte 6 on. *)
Theorem C15_strings_inside_refuted : exists (b : list N) r s' t,
  all_bytes b /\ next ex_cfg (structures (ex_v2 6) b) = Val (Some (Ok (SOther r)), s') /\
  find_string r 2 = Ok t /\ t = take (len t) (drop 6 b) /\ 6 < idx s'.
Proof.
  exists [200; 4; 0; 0; 65; 0; 83; 69; 67; 0; 0]. do 3 eexists.
  split; [apply all_bytes_dec; vm_compute; reflexivity|].
  split; [vm_compute; reflexivity|]. split; [vm_compute; reflexivity|]. split; vm_compute; reflexivity.
Qed.
Print Assumptions C15_strings_inside_refuted.

Example C15_example : exists x s', next ex_cfg (structures (ex_v2 26) (table ex_list)) = Val (Some (Ok x), s').
Proof. do 2 eexists. vm_compute. reflexivity. Qed.

(* C16: what follows a complete table in the buffer changes nothing a caller sees
   (strict memory model: over-reads are undefined behaviour and end the run). *)
Theorem C16_bytes_after_table_irrelevant : forall c e (ss : list encodable) rest1 rest2 l1 e1 l2 e2,
  flat_memory c = false ->
  Forall encodable_ok ss -> ep_smbios_len e = len (table ss) ->
  all_bytes (table ss ++ rest1) -> len (table ss ++ rest1) + 260 <= 2 ^ 32 ->
  all_bytes (table ss ++ rest2) -> len (table ss ++ rest2) + 260 <= 2 ^ 32 ->
  runs (next c) (structures e (table ss ++ rest1)) l1 e1 ->
  runs (next c) (structures e (table ss ++ rest2)) l2 e2 ->
  map seen l1 = map seen l2 /\ seen_ending e1 = seen_ending e2.
Proof. intros c e ss rest1 rest2 l1 e1 l2 e2. apply runs_structures_same. Qed.
Print Assumptions C16_bytes_after_table_irrelevant.

Example C16_example : exists l1 s1 l2 s2,
  runs (next ex_cfg) (structures (ex_v2 26) (table ex_list ++ [1; 2; 3])) l1 (Exhausted s1) /\
  runs (next ex_cfg) (structures (ex_v2 26) (table ex_list ++ [4])) l2 (Exhausted s2) /\ len l1 = 3.
Proof.
  do 4 eexists. split; [|split].
  - do 3 (eapply runs_some; [vm_compute; reflexivity|]). apply runs_none. vm_compute. reflexivity.
  - do 3 (eapply runs_some; [vm_compute; reflexivity|]). apply runs_none. vm_compute. reflexivity.
  - reflexivity.
Qed.

(* C17: the type byte alone selects the variant ... *)
Theorem C17_type_selects_variant : forall c s x s',
  sane s -> next c s = Val (Some (Ok x), s') ->
  exists k, byte_at (buffer s) (idx s) = Some k /\
  (In k decoded_types -> variant_type x = Some k) /\
  (~ In k decoded_types -> exists r, here s r /\ x = SOther r).
Proof. exact next_variant. Qed.
Print Assumptions C17_type_selects_variant.

(* ... a type without a decoder always comes back raw ... *)
Theorem C17_undecoded_is_raw : forall c s r k,
  sane s -> here s r -> byte_at (buffer s) (idx s) = Some k -> ~ In k decoded_types ->
  exists s', next c s = Val (Some (Ok (SOther r)), s').
Proof. exact next_raw_type. Qed.
Print Assumptions C17_undecoded_is_raw.

(* ... and the InfoType is the one the specification gives this type number. *)
Theorem C17_info_type_number : forall k, type_number (InfoType_from k) = k.
Proof. exact InfoType_number. Qed.
Print Assumptions C17_info_type_number.

Theorem C17_info_type_injective : forall a b, InfoType_from a = InfoType_from b -> a = b.
Proof. exact InfoType_injective. Qed.
Print Assumptions C17_info_type_injective.

Example C17_example :
  (exists x s', next ex_cfg (structures (ex_v2 26) (table ex_list)) = Val (Some (Ok x), s') /\ variant_type x = Some 11) /\
  (exists r, here (moved_to 11 (structures (ex_v2 26) (table ex_list))) r /\
     byte_at (table ex_list) 11 = Some 200 /\ ~ In 200 decoded_types).
Proof.
  split; [do 2 eexists; split; [vm_compute; reflexivity|vm_compute; reflexivity]|].
  exists (raw_of {| major := 2; minor := 7 |} (nth 1 ex_list (nth 0 ex_list {| e_type := 0; e_handle := 0; e_body := []; e_strings := [] |}))
            (table (skipn 2 ex_list))).
  split; [|split; [reflexivity|cbn; lia]].
  split; [|split; vm_compute; (reflexivity || discriminate)].
  refine (framed_encode {| major := 2; minor := 7 |} (table (firstn 1 ex_list)) (nth 1 ex_list _) (table (skipn 2 ex_list)) _).
  exact (Forall_inv (Forall_inv_tail ex_list_ok)).
Qed.
