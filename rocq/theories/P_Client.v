(* Property C98: decoders that callers write for themselves.
   Vocabulary: S_Client.v (client: any adaptive sequence of uses of the public interface of a
   raw structure; careful; reads_same), S_Iter.v (bare: a structure without what lies behind it
   in memory). *)
From Coq Require Import String.
From Coq Require Import ZArith Lia ZifyBool ZifyNat ZifyN.
From Verif Require Import Base G_Enums M_Raw M_Strings M_Eq G_Eq M_Iter Spec S_Iter L_Base L_Iter L_Frame L_Same P_Iter P_Strings S_Client L_Client.
Local Open Scope N_scope.

(* Whatever a caller asks for, no access leaves the structure. *)
Theorem C98_in_bounds : forall A c (p : client A) r, run_client c p r <> UB.
Proof. intros A c p r H. destruct (client_cases c p r) as [[a E]|[E _]]; congruence. Qed.
Print Assumptions C98_in_bounds.

(* A caller that asks for offsets from 4 on and sizes that end below 2^32 is answered, whatever
   the structure holds and however short it is: there is no panic in any build. *)
Theorem C98_no_panic : forall A c (p : client A) r, careful p -> exists a, run_client c p r = Val a.
Proof. intros A c p r H. exact (proj1 (client_careful c c p r H)). Qed.
Print Assumptions C98_no_panic.

(* ... and it is answered alike by all builds. *)
Theorem C98_builds : forall A c c' (p : client A) r, careful p -> run_client c p r = run_client c' p r.
Proof. intros A c c' p r H. exact (proj2 (client_careful c c' p r H)). Qed.
Print Assumptions C98_builds.

(* A panic needs both: a build that checks for overflow and a caller that is not careful. *)
Theorem C98_panics_only : forall A c (p : client A) r,
  run_client c p r = Panic -> overflow_checks c = true /\ ~ careful p.
Proof.
  intros A c p r H. split; [destruct (client_cases c p r) as [[a E]|[_ E]]; congruence|].
  intros C. destruct (C98_no_panic A c p r C) as [a E]. congruence.
Qed.
Print Assumptions C98_panics_only.

(* Reading a number is reading a type of the caller's own of that many bytes: it gets the bytes
   of the structure at its place, or none. *)
Theorem C98_numbers_as_own_types : forall c w offset r,
  get c w offset r = let! l := own_slice c w offset r in Val (if len l =? w then Ok (little l) else Err InvalidSlice).
Proof.
  intros c w o r. rewrite get_span, own_span. destruct (span c o w) as [ab| |]; cbn [obind]; reflexivity.
Qed.
Print Assumptions C98_numbers_as_own_types.
Theorem C98_own_types : forall c w offset r, asks_well offset w ->
  own_slice c w offset r = Val (if offset - 4 + w <=? len (data r) then take w (drop (offset - 4) (data r)) else []).
Proof.
  intros c w o r H. rewrite own_span, (span_well _ _ _ H). cbn [obind]. unfold piece_of. cbn [fst snd].
  destruct (slice_get _ _ _) as [s|] eqn:E.
  - apply slice_get_some in E as (_ & B & ->). destruct (N.leb_spec (o - 4 + w) (len (data r))); [|lia].
    replace (o - 4 + w - (o - 4)) with w by lia. reflexivity.
  - apply slice_get_none in E. destruct (N.leb_spec (o - 4 + w) (len (data r))); [lia|reflexivity].
Qed.
Print Assumptions C98_own_types.

(* Callers see the structure only: not what lies behind it. *)
Theorem C98_own_bytes : forall A c (p : client A) r r', bare r = bare r' -> run_client c p r = run_client c p r'.
Proof. intros A c p r r'. apply client_bare. Qed.
Print Assumptions C98_own_bytes.

(* Two tables, at any places: the same bytes under the same version are the same to every
   caller. *)
Theorem C98_same_bytes : forall A c (p : client A) s r s' t r' t',
  sane s -> sane t -> smbios_version s = smbios_version t ->
  next c s = Val (Some (Ok (SOther r)), s') -> next c t = Val (Some (Ok (SOther r')), t') ->
  take (idx s' - idx s) (drop (idx s) (buffer s)) = take (idx t' - idx t) (drop (idx t) (buffer t)) ->
  run_client c p r = run_client c p r'.
Proof. intros A c p s r s' t r' t' S T V N1 N2 E. apply client_bare. exact (other_bare c s r s' t r' t' S T V N1 N2 E). Qed.
Print Assumptions C98_same_bytes.

(* What callers can find out is exactly the public fields and the texts by number. *)
Theorem C98_told_apart : forall c r r', all_bytes (data r) ->
  (forall A (p : client A), run_client c p r = run_client c p r') <-> reads_same r r'.
Proof.
  intros c r r' B. split; [intros H; apply (client_told c); intros A p _; apply H|intros H A p; apply client_same; assumption].
Qed.
Print Assumptions C98_told_apart.

(* Careful callers find out as much as any others. *)
Theorem C98_careful_enough : forall c r r', all_bytes (data r) ->
  (forall A (p : client A), careful p -> run_client c p r = run_client c p r') ->
  forall A (p : client A), run_client c p r = run_client c p r'.
Proof. intros c r r' B H A p. apply client_same; [exact B|]. exact (client_told c r r' H). Qed.
Print Assumptions C98_careful_enough.

(* Comparison with == sees more than callers can read: the bytes of a text that is not UTF-8. *)
Definition ex_dark (b : N) : RawStructure := {|
  version := {| major := 3; minor := 2 |}; info := InfoType_Oem 200; length_ := 5; handle := 7;
  data := [1]; strings := [b; 0; 65; 0; 0]; after := [b; 0; 65; 0; 0] |}.
Theorem C98_equality_refuted : ~ (forall c r r',
  (forall A (p : client A), run_client c p r = run_client c p r') -> RawStructure_eq r r' = true).
Proof.
  intros H. enough (E : RawStructure_eq (ex_dark 254) (ex_dark 255) = true) by discriminate E.
  apply (H ex_cfg). apply C98_told_apart; [apply all_bytes_dec; reflexivity|].
  repeat (split; [reflexivity|]). intros k _. unfold find_string. destruct (k =? 0); [reflexivity|].
  destruct (N.to_nat (k - 1)); reflexivity.
Qed.
Print Assumptions C98_equality_refuted.

(* A decoder as a caller might write it for a vendor's structure: a text at offset 4, a word at
   5 and, if there is one, a second text whose number is the last byte. *)
Definition ex_decoder : client (res text * res N * option (res text)) :=
  GetString 4 (fun a => Get 2 5 (fun w => Fields (fun _ _ n _ _ =>
    if 8 <=? n then FindString (n - 6) (fun b => Done (a, w, Some b)) else Done (a, w, None)))).
Definition ex_vendor (d : list N) : RawStructure := {|
  version := {| major := 3; minor := 2 |}; info := InfoType_Oem 200; length_ := 4 + len d; handle := 7;
  data := d; strings := [65; 0; 66; 67; 0; 0]; after := [65; 0; 66; 67; 0; 0; 9] |}.
Example C98_example :
  careful ex_decoder /\
  (exists e, run_client ex_checked ex_decoder (ex_vendor []) = Val (Err e, Err InvalidSlice, None)) /\
  run_client ex_release ex_decoder (ex_vendor [1; 5; 6; 0]) = Val (Ok [65], Ok 1541, Some (Ok [66; 67])) /\
  run_client ex_checked (Get 2 3 Done) (ex_vendor [1; 5; 6; 0]) = Panic /\
  run_client ex_release (Get 2 3 Done) (ex_vendor [1; 5; 6; 0]) = Val (Err InvalidSlice) /\
  ~ careful (Get 2 3 (@Done (res N))).
Proof.
  split. { cbn. unfold asks_well. split; [lia|]. intros a. split; [lia|]. intros w v i n h d. destruct (8 <=? n); cbn; auto. }
  split; [eexists; vm_compute; reflexivity|]. split; [vm_compute; reflexivity|]. split; [vm_compute; reflexivity|].
  split; [vm_compute; reflexivity|]. cbn. unfold asks_well. lia.
Qed.

(* the OEM structure of the table of P_Iter.v, seen through two buffers *)
Example C98_same_bytes_example : exists s r s' t r' t',
  sane s /\ sane t /\ smbios_version s = smbios_version t /\ idx s <> idx t /\ r <> r' /\
  next ex_cfg s = Val (Some (Ok (SOther r)), s') /\ next ex_cfg t = Val (Some (Ok (SOther r')), t') /\
  take (idx s' - idx s) (drop (idx s) (buffer s)) = take (idx t' - idx t) (drop (idx t) (buffer t)).
Proof.
  set (e := {| e_type := 200; e_handle := 7; e_body := [0; 0; 9]; e_strings := [] |}).
  set (f := {| e_type := 200; e_handle := 8; e_body := []; e_strings := [[65]] |}).
  exists (structures (ex_v2 100) (table [e; f])). eexists _, _.
  exists (moved_to 7 (structures (ex_v2 100) (table [f; e]))). eexists _, _.
  assert (K : forall x, sane (structures (ex_v2 100) (table [e; f])) /\ (x = 7 \/ x = 9 -> sane (moved_to x (structures (ex_v2 100) (table [f; e]))))).
  { intros x. split; [|intros H]; (split; [apply all_bytes_dec; vm_compute; reflexivity|]).
    - split; vm_compute; discriminate.
    - split; [destruct H as [-> | ->]|]; vm_compute; discriminate. }
  split; [apply (K 7)|]. split; [apply K; auto|]. split; [reflexivity|]. split; [vm_compute; discriminate|].
  split; [|split; [vm_compute; reflexivity|split; vm_compute; reflexivity]].
  intros H. apply (f_equal after) in H. vm_compute in H. discriminate H.
Qed.
