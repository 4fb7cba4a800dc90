(* Properties C01-C08: finding and accepting an entry point.
   Vocabulary: Spec.v and S_Entry.v. *)
From Coq Require Import ZArith Lia ZifyBool ZifyNat ZifyN.
From Verif Require Import Base G_Enums M_Raw M_Entry Spec S_Entry L_Base L_Entry T_Data.
Local Open Scope N_scope.

(* Buffers used by the examples: the crate's own entry points, with anchor-free
   paragraphs in front and other bytes behind. *)
Definition ex_pre : list N := [1; 2; 3; 95; 83; 77; 95; 8; 9; 10; 11; 12; 13; 14; 15; 16].
Definition ex_buffer : list N := ex_pre ++ entry_bin ++ [7; 7; 7].

(* C01: search returns Ok or Err for every buffer (it neither panics nor reads
   outside the buffer, which the model would report as Panic or UB). *)
Theorem C01_search_total : forall b : list N, exists x, search b = Val x.
Proof. exact search_total. Qed.
Print Assumptions C01_search_total.

Example C01_example : exists e, search ex_buffer = Val (Ok e) /\ search (take 20 ex_buffer) = Val (Err (EpBadSize 4)).
Proof. eexists. split; vm_compute; reflexivity. Qed.

(* C02: what search accepts is a valid entry point at the first anchor. *)
Theorem C02_search_genuine : forall (b : list N) (e : EntryPoint),
  search b = Val (Ok e) ->
  exists o, first_anchor b o (kind_of e) /\ valid_entry (kind_of e) (drop o b) /\ describes (drop o b) e.
Proof. exact search_genuine. Qed.
Print Assumptions C02_search_genuine.

Example C02_example : exists e, search ex_buffer = Val (Ok e) /\ kind_of e = FmtV2.
Proof. eexists. split; vm_compute; reflexivity. Qed.

(* C03: NotFound exactly when there is no anchor at any paragraph boundary. *)
Theorem C03_not_found_iff : forall b : list N,
  search b = Val (Err NotFound) <-> forall o k, ~ anchor_at b o k.
Proof. exact (fun b => iff_sym (search_no_anchor b)). Qed.
Print Assumptions C03_not_found_iff.

(* an anchor that is not on a paragraph boundary does not count *)
Example C03_example : search ex_pre = Val (Err NotFound) /\ search entry_v3_bin <> Val (Err NotFound).
Proof. split; vm_compute; [reflexivity|discriminate]. Qed.

(* C04: the result at the first anchor is exactly what the decision table says. *)
Theorem C04_search_verdict : forall (b : list N) o k x,
  first_anchor b o k -> (search b = Val x <-> verdict k (drop o b) x).
Proof. exact search_verdict. Qed.
Print Assumptions C04_search_verdict.

Example C04_example : first_anchor ex_buffer 16 FmtV2.
Proof. apply find_signature_first. vm_compute. reflexivity. Qed.
Example C04_example_rows :
  search [95; 83; 77; 95] = Val (Err (EpBadSize 4)) /\
  search ([95; 83; 77; 95; 0; 30] ++ repeat 0 30) = Val (Err (EpBadSize 30)) /\
  search ([95; 83; 77; 95; 0; 31; 1] ++ repeat 0 30) = Val (Err (TooOldVersion 1)) /\
  search ([95; 83; 77; 95; 0; 38; 2] ++ repeat 0 30) = Val (Err (EpBadSize 37)) /\
  search ([95; 83; 77; 95; 0; 31; 2] ++ repeat 0 30) = Val (Err (BadChecksum 127)).
Proof. repeat split; vm_compute; reflexivity. Qed.

(* C05: a valid entry point at the first anchor is accepted exactly when the number
   of bytes that remain from the anchor, modulo 256, reaches its length... *)
Theorem C05_valid_accepted_iff : forall (b : list N) o k,
  first_anchor b o k -> valid_entry k (drop o b) ->
  ((exists e, search b = Val (Ok e)) <-> declared_length k (drop o b) <= len (drop o b) mod 256).
Proof. exact valid_accept. Qed.
Print Assumptions C05_valid_accepted_iff.

(* ... so "a valid entry point is accepted whatever follows it" is false: with 256
   bytes from the anchor to the end of the buffer the crate's own fixture is
   rejected. *)
Theorem C05_valid_accepted_refuted :
  exists (b : list N) o k,
    first_anchor b o k /\ valid_entry k (drop o b) /\ forall e, search b <> Val (Ok e).
Proof.
  exists (entry_bin ++ repeat 0 225), 0, FmtV2. repeat split.
  - eexists. vm_compute. reflexivity.
  - intros o' k' H; lia.
  - eexists. vm_compute. reflexivity.
  - vm_compute. discriminate.
  - vm_compute. discriminate.
  - vm_compute. discriminate.
  - intros e. vm_compute. discriminate.
Qed.
Print Assumptions C05_valid_accepted_refuted.

Example C05_example : valid_entry FmtV2 (drop 16 ex_buffer) /\ declared_length FmtV2 (drop 16 ex_buffer) = 31.
Proof.
  repeat split; try (vm_compute; discriminate).
  eexists. vm_compute. reflexivity.
Qed.

(* C06: anchor-free paragraphs in front do not matter; a bad first anchor makes
   the search fail whatever follows. *)
Theorem C06_prefix_irrelevant : forall p b : list N,
  len p mod 16 = 0 -> (forall o k, ~ anchor_at p o k) -> search (p ++ b) = search b.
Proof. exact search_prefix. Qed.
Print Assumptions C06_prefix_irrelevant.

Theorem C06_only_first_anchor_tried : forall (b : list N) o k,
  first_anchor b o k -> ~ valid_entry k (drop o b) -> exists er, search b = Val (Err er).
Proof. exact bad_first_anchor. Qed.
Print Assumptions C06_only_first_anchor_tried.

Example C06_example_prefix : len ex_pre mod 16 = 0 /\ forall o k, ~ anchor_at ex_pre o k.
Proof. split; [reflexivity|]. apply search_no_anchor. vm_compute. reflexivity. Qed.
(* a stray anchor hides the valid entry point behind it *)
Example C06_example_hidden :
  first_anchor ([95; 83; 77; 95] ++ repeat 0 12 ++ ex_buffer) 0 FmtV2 /\
  search ([95; 83; 77; 95] ++ repeat 0 12 ++ ex_buffer) = Val (Err (EpBadSize 0)) /\
  exists e, search ex_buffer = Val (Ok e).
Proof.
  split; [apply find_signature_first; vm_compute; reflexivity|].
  split; [vm_compute; reflexivity|]. eexists. vm_compute. reflexivity.
Qed.

(* C07: changing one byte of a valid entry point outside its anchor string and its
   length byte makes the search fail. *)
Theorem C07_corruption_detected : forall (b b' : list N) o k i,
  all_bytes b -> all_bytes b' ->
  first_anchor b o k -> valid_entry k (drop o b) ->
  i < declared_length k (drop o b) -> ~ anchor_or_length k i ->
  differ_only_at (o + i) b b' ->
  exists er, search b' = Val (Err er).
Proof. exact search_corruption. Qed.
Print Assumptions C07_corruption_detected.

Definition ex_corrupt : list N := ex_pre ++ take 24 entry_bin ++ [1] ++ drop 25 entry_bin ++ [7; 7; 7].
Example C07_example :
  all_bytes ex_buffer /\ all_bytes ex_corrupt /\ first_anchor ex_buffer 16 FmtV2 /\
  24 < declared_length FmtV2 (drop 16 ex_buffer) /\ ~ anchor_or_length FmtV2 24 /\
  differ_only_at (16 + 24) ex_buffer ex_corrupt.
Proof.
  split; [apply all_bytes_dec; vm_compute; reflexivity|].
  split; [apply all_bytes_dec; vm_compute; reflexivity|].
  split; [apply find_signature_first; vm_compute; reflexivity|].
  split; [vm_compute; reflexivity|].
  split; [cbn; lia|].
  split; [vm_compute; reflexivity|]. split; [vm_compute; discriminate|].
  intros j Hj. destruct (N.le_gt_cases 50 j).
  - transitivity (@None N); [|symmetry]; apply byte_at_none; (transitivity 50; [vm_compute; discriminate|assumption]).
  - assert (Hf : forallb (fun n => (Nat.eqb n 40) ||
        match byte_at ex_corrupt (N.of_nat n), byte_at ex_buffer (N.of_nat n) with
        | Some a, Some b => a =? b | _, _ => false end) (seq 0 50) = true) by (vm_compute; reflexivity).
    rewrite forallb_forall in Hf. specialize (Hf (N.to_nat j)). rewrite in_seq in Hf.
    specialize (Hf ltac:(lia)). rewrite N2Nat.id in Hf. destruct (Nat.eqb_spec (N.to_nat j) 40); [lia|].
    cbn [orb] in Hf.
    destruct (byte_at ex_corrupt j), (byte_at ex_buffer j); try discriminate.
    apply N.eqb_eq in Hf. congruence.
Qed.

(* C08: what the accessors report, at the offsets of the two layouts. *)
Theorem C08_accessors : forall (b : list N) e,
  search b = Val (Ok e) ->
  exists o, first_anchor b o (kind_of e) /\
  let v2 x y := match kind_of e with FmtV2 => x | FmtV3 => y end in
  let at_offset := fun off w => little (take w (drop (o + off) b)) in
  ep_major e = at_offset (v2 6 7) 1 /\
  ep_minor e = at_offset (v2 7 8) 1 /\
  ep_revision e = at_offset 10 1 /\
  ep_smbios_len e = at_offset (v2 22 12) (v2 2 4) /\
  ep_smbios_address e = at_offset (v2 24 16) (v2 4 8) /\
  major (ep_to_version e) = ep_major e /\ minor (ep_to_version e) = ep_minor e.
Proof. exact search_accessors. Qed.
Print Assumptions C08_accessors.

Example C08_example : exists e, search (ex_pre ++ entry_v3_bin) = Val (Ok e) /\
  ep_major e = 3 /\ ep_minor e = 0 /\ ep_revision e = 1 /\ ep_smbios_len e = 5525 /\ ep_smbios_address e = 0xEAE00.
Proof. eexists. repeat split; vm_compute; reflexivity. Qed.
