(* Property C71: the two documented ways of use, from the bytes of the files to the
   values.  Vocabulary: S_Write.v (how values are written), S_Table.v (entry points),
   S_Use.v (dumps), S_Safety.v (long enough structures). *)
From Coq Require Import String.
From Coq Require Import ZArith Lia ZifyBool ZifyNat ZifyN.
From Verif Require Import Base G_Enums M_Raw M_Entry M_System M_Iter M_Use.
From Verif Require Import Spec S_Enums S_Entry S_Iter S_Safety S_Table S_Write S_Use.
From Verif Require Import L_Base L_Utf8 L_Entry L_Write L_Use P_Entry P_System P_Iter P_Write.
Local Open Scope N_scope.

(* Two files, as Linux offers them: the values that were written are what a caller
   gets, in order and nothing else, whatever follows the table in its file. *)
Theorem C71_files_read_back : forall c p a tail ss ws rest, firmware a ss ws rest ->
  len p mod 16 = 0 -> (forall o k, ~ anchor_at p o k) ->
  S_Entry.layout_size (a_kind a) <= (S_Entry.layout_size (a_kind a) + len tail) mod 256 ->
  exists s s', open_files (p ++ encode_entry a ++ tail) (table (map encoded ws) ++ rest) = Val (Ok s) /\
    drains (next c) s (map Ok ss) s'.
Proof. exact files_read_back. Qed.
Print Assumptions C71_files_read_back.

(* A memory dump: the entry point says where the table is. *)
Theorem C71_dump_read_back : forall c p a gap ss ws rest, firmware a ss ws rest ->
  len p mod 16 = 0 -> (forall o k, ~ anchor_at p o k) ->
  S_Entry.layout_size (a_kind a) <=
    (S_Entry.layout_size (a_kind a) + len (gap ++ table (map encoded ws) ++ rest)) mod 256 ->
  a_address a = len (p ++ encode_entry a ++ gap) -> len (dump p a gap ws rest) < 2 ^ usize_bits c ->
  exists s s', open_dump c (dump p a gap ws rest) = Val (Ok s) /\ drains (next c) s (map Ok ss) s'.
Proof. exact dump_read_back. Qed.
Print Assumptions C71_dump_read_back.

(* The documented loop passes over errors: its body sees the well-formed structures,
   and all values of a written table. *)
Theorem C71_loop_sees : forall items s, In s (well_formed_only items) <-> In (Ok s) items.
Proof. exact well_formed_in. Qed.
Print Assumptions C71_loop_sees.
Theorem C71_loop_order : forall items,
  map Ok (well_formed_only items) = filter (fun i => match i with Ok _ => true | Err _ => false end) items.
Proof. exact well_formed_order. Qed.
Print Assumptions C71_loop_order.
Theorem C71_loop_sees_all : forall ss, well_formed_only (map Ok ss) = ss.
Proof. exact well_formed_all. Qed.
Print Assumptions C71_loop_sees_all.

(* Opening any dump: an error of search is passed on; the program panics exactly when
   the announced address lies behind the end of the dump; nothing is read out of bounds. *)
Theorem C71_dump_opens_exactly : forall c b s,
  open_dump c b = Val (Ok s) <->
  exists e, search b = Val (Ok e) /\ place c e <= len b /\ s = structures e (drop (place c e) b).
Proof. exact open_dump_ok. Qed.
Print Assumptions C71_dump_opens_exactly.
(* ... where the place is the announced address, if it fits the machine: always if there
   are 64 bits, always for a 32-bit entry point. *)
Theorem C71_dump_place : forall c b e, all_bytes b -> search b = Val (Ok e) ->
  pointer_width c = W64 \/ kind_of e = FmtV2 \/ ep_smbios_address e < 2 ^ 32 -> place c e = ep_smbios_address e.
Proof.
  intros c b e HB E [H|[H|H]]; [eapply place_same; eauto|eapply place_v2; eauto|eapply place_same; eauto].
Qed.
Print Assumptions C71_dump_place.
(* Otherwise the address is cut to 32 bits: the program opens, as the table, bytes that are
   not at the announced address, which may be far behind the end of the dump. *)
Theorem C71_dump_place_refuted : exists c b e s, all_bytes b /\ search b = Val (Ok e) /\
  open_dump c b = Val (Ok s) /\ len b < ep_smbios_address e.
Proof.
  set (a := {| a_kind := FmtV3; a_major := 3; a_minor := 2; a_docrev := 1; a_revision := 1; a_max_structure := 0;
    a_length := 14; a_address := 0x100000018; a_count := 0; a_bcd := 0 |}).
  exists {| overflow_checks := true; flat_memory := false; pointer_width := W32 |}, (encode_entry a ++ [127; 4; 2; 0; 0; 0]).
  do 2 eexists. split; [apply all_bytes_dec; vm_compute; reflexivity|]. split; [vm_compute; reflexivity|].
  split; [vm_compute; reflexivity|]. vm_compute. reflexivity.
Qed.
Print Assumptions C71_dump_place_refuted.
Theorem C71_dump_fails_exactly : forall c b x, open_dump c b = Val (Err x) <-> search b = Val (Err x).
Proof. exact open_dump_err. Qed.
Print Assumptions C71_dump_fails_exactly.
Theorem C71_dump_panics_exactly : forall c b,
  open_dump c b = Panic <-> exists e, search b = Val (Ok e) /\ len b < place c e.
Proof. exact open_dump_panic. Qed.
Print Assumptions C71_dump_panics_exactly.
Theorem C71_dump_never_overreads : forall c b, open_dump c b <> UB.
Proof. exact open_dump_no_ub. Qed.
Print Assumptions C71_dump_never_overreads.

(* Any bytes: if the announced table lies inside the dump, and all structures in it are
   as long as they have to be, the program runs to the end. *)
Theorem C71_dump_safe : forall c b e, all_bytes b -> len b + 260 <= 2 ^ 32 -> search b = Val (Ok e) ->
  ep_smbios_address e + ep_smbios_len e <= len b ->
  let s := structures e (drop (ep_smbios_address e) b) in
  lengths_ok c s -> (forall s1 r, reached c s s1 -> here s1 r -> well_sized r) ->
  open_dump c b = Val (Ok s) /\ exists l s', drains (next c) s l s'.
Proof. exact dump_safe. Qed.
Print Assumptions C71_dump_safe.
Theorem C71_files_safe : forall c buf dmi e, all_bytes dmi -> len dmi + 260 <= 2 ^ 32 -> search buf = Val (Ok e) ->
  ep_smbios_len e <= len dmi ->
  let s := structures e dmi in
  lengths_ok c s -> (forall s1 r, reached c s s1 -> here s1 r -> well_sized r) ->
  open_files buf dmi = Val (Ok s) /\ exists l s', drains (next c) s l s'.
Proof. exact files_safe. Qed.
Print Assumptions C71_files_safe.

(* ------------------------------------------------------------------ examples *)

(* a system structure and an End structure of version 3.2 *)
Definition ex_values : list Structure := [
  SSystem {| system_handle := 257; system_manufacturer := ab; system_product := cd; system_version := [];
             system_serial := ab; system_uuid := Some [0; 1; 2; 3; 4; 5; 6; 7; 8; 9; 10; 11; 12; 13; 14; 15];
             system_wakeup := Some WakeupType_Power_Switch; system_sku := Some []; system_family := Some cd |};
  SOther (raw_of ex_32 {| e_type := 127; e_handle := 2; e_body := []; e_strings := [] |} [9; 9])].
Definition ex_written : list written := [
  {| w_type := 1; w_handle := 257;
     w_items := [Ref ab; Ref cd; Ref []; Ref ab; Raw [3; 2; 1; 0; 5; 4; 7; 6; 8; 9; 10; 11; 12; 13; 14; 15]; U8 6; Ref []; Ref cd];
     w_more := [] |};
  {| w_type := 127; w_handle := 2; w_items := []; w_more := [] |}].
Definition ex_entry : announcement := {|
  a_kind := FmtV3; a_major := 3; a_minor := 2; a_docrev := 1; a_revision := 1; a_max_structure := 0;
  a_length := 4096; a_address := 48; a_count := 0; a_bcd := 0 |}.

Example C71_example : firmware ex_entry ex_values ex_written [9; 9] /\
  len ex_pre mod 16 = 0 /\ (forall o k, ~ anchor_at ex_pre o k) /\
  S_Entry.layout_size (a_kind ex_entry) <=
    (S_Entry.layout_size (a_kind ex_entry) + len (repeat 0 8 ++ table (map encoded ex_written) ++ [9; 9])) mod 256 /\
  a_address ex_entry = len (ex_pre ++ encode_entry ex_entry ++ repeat 0 8) /\
  len (dump ex_pre ex_entry (repeat 0 8) ex_written [9; 9]) < 2 ^ usize_bits ex_cfg.
Proof.
  split; [split|split; [reflexivity|split; [|split; [vm_compute; discriminate|split; vm_compute; reflexivity]]]].
  - repeat split; vm_compute; reflexivity || discriminate.
  - repeat (apply Forall_cons; [written|]); apply Forall_nil.
  - apply lays_more; [|apply lays_more; [|apply lays_none]].
    + exact (lays_system ex_32 _ ab cd [] ab [0; 1; 2; 3; 4; 5; 6; 7; 8; 9; 10; 11; 12; 13; 14; 15] 6 [] cd eq_refl).
    + apply lays_other. vm_compute. intuition discriminate.
  - intros _ front w back E N. revert front w back E N. apply (ends_last_dec _ _ eq_refl). reflexivity.
  - right. split; [vm_compute; discriminate|]. split; [|vm_compute; discriminate].
    eexists. split; [right; left; reflexivity|reflexivity].
  - apply all_bytes_dec; reflexivity.
  - vm_compute. discriminate.
  - apply (proj2 C06_example_prefix).
Qed.

(* an unknown structure and the End structure, announced with their exact length *)
Definition ex_small : announcement := {|
  a_kind := FmtV3; a_major := 3; a_minor := 2; a_docrev := 1; a_revision := 1; a_max_structure := 0;
  a_length := 14; a_address := 24; a_count := 0; a_bcd := 0 |}.
Definition ex_bytes : list N := [200; 6; 1; 0; 5; 5; 0; 0] ++ [127; 4; 2; 0; 0; 0].
Definition ex_dump : list N := encode_entry ex_small ++ ex_bytes.
Example C71_example_safe : exists e, all_bytes ex_dump /\ len ex_dump + 260 <= 2 ^ 32 /\ search ex_dump = Val (Ok e) /\
  ep_smbios_address e + ep_smbios_len e <= len ex_dump /\
  let s := structures e (drop (ep_smbios_address e) ex_dump) in
  lengths_ok ex_cfg s /\ (forall s1 r, reached ex_cfg s s1 -> here s1 r -> well_sized r).
Proof.
  eexists. split; [apply all_bytes_dec; vm_compute; reflexivity|]. split; [vm_compute; discriminate|].
  split; [vm_compute; reflexivity|]. split; [vm_compute; discriminate|]. cbv zeta.
  match goal with |- lengths_ok _ ?s0 /\ _ => set (s := s0) end.
  assert (K : forall s1, reached ex_cfg s s1 -> s1 = s \/ s1 = moved_to 8 s \/ s1 = stopped_at 14 s).
  { intros s1 H. induction H as [|s1 x s2 _ IH H]; [left; reflexivity|]. destruct IH as [-> |[-> | ->]].
    - right. left. vm_compute in H. injection H as _ <-. reflexivity.
    - right. right. vm_compute in H. injection H as _ <-. reflexivity.
    - vm_compute in H. discriminate H. }
  split.
  - intros s1 l R L B. destruct (K s1 R) as [-> |[-> | ->]];
      [vm_compute in B; injection B as <-; vm_compute; discriminate..|vm_compute in L; destruct (L eq_refl)].
  - intros s1 r R [[pre [post [kind [h0 [h1 [F [P [_ [_ [N _]]]]]]]]]] [L _]]. unfold well_sized. rewrite N.
    assert (B : byte_at (buffer s1) (idx s1) = Some kind).
    { rewrite F, <- P. unfold byte_at, len. rewrite Nnat.Nat2N.id. rewrite nth_error_app2 by auto.
      rewrite PeanoNat.Nat.sub_diag. reflexivity. }
    clear F P N.
    destruct (K s1 R) as [-> |[-> | ->]]; [vm_compute in B; injection B as <-; exact I..|vm_compute in L; destruct (L eq_refl)].
Qed.
