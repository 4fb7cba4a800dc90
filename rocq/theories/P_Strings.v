(* Properties C18-C21: the string area and raw field access.
   Vocabulary: Spec.v (text_number, string_number, good_string, utf8, field_is, drains). *)
From Coq Require Import ZArith Lia ZifyBool ZifyNat ZifyN.
From Verif Require Import Base G_Enums M_Raw Spec L_Base L_Utf8 L_Strings.
Local Open Scope N_scope.

(* a structure with the strings "AB" and "é" *)
Definition ex_raw : RawStructure := {|
  version := {| major := 2; minor := 7 |}; info := InfoType_Bios; length_ := 8; handle := 77;
  data := [1; 2; 3; 4]; strings := [65; 66; 0; 0xC3; 0xA9; 0; 0]; after := [] |}.

(* C18: a lookup succeeds with exactly the string of that number ... *)
Theorem C18_find_string_ok : forall (r : RawStructure) k t,
  find_string r k = Ok t <-> text_number r k t.
Proof. exact find_string_ok. Qed.
Print Assumptions C18_find_string_ok.

(* ... and fails, naming type, handle and index, exactly when there is none. *)
Theorem C18_find_string_err : forall (r : RawStructure) k e,
  find_string r k = Err e <->
  e = InvalidStringIndex (info r) (handle r) k /\ forall t, ~ text_number r k t.
Proof. exact find_string_err. Qed.
Print Assumptions C18_find_string_err.

Theorem C18_text_number_unique : forall (r : RawStructure) k t1 t2,
  text_number r k t1 -> text_number r k t2 -> t1 = t2.
Proof. exact text_number_fun. Qed.
Print Assumptions C18_text_number_unique.

Example C18_example :
  find_string ex_raw 0 = Ok [] /\ find_string ex_raw 1 = Ok [65; 66] /\ find_string ex_raw 2 = Ok [0xC3; 0xA9] /\
  find_string ex_raw 3 = Err (InvalidStringIndex InfoType_Bios 77 3).
Proof. repeat split. Qed.

(* C19: the validity test accepts exactly the UTF-8 encodings of Unicode text ... *)
Theorem C19_utf8_exact : forall l : list N, from_utf8 l = true <-> utf8 l.
Proof. exact from_utf8_iff. Qed.
Print Assumptions C19_utf8_exact.

(* ... so every text found is non-empty, NUL-free, valid, and a piece of the area. *)
Theorem C19_found_text_valid : forall (r : RawStructure) k t,
  find_string r k = Ok t -> k <> 0 ->
  t <> [] /\ ~ In 0 t /\ utf8 t /\ exists pre post, strings r = pre ++ t ++ post.
Proof. exact find_string_sound. Qed.
Print Assumptions C19_found_text_valid.

(* overlong forms, surrogates and values past U+10FFFF are refused *)
Example C19_example :
  utf8 [0xC3; 0xA9; 0xE2; 0x82; 0xAC; 0xF0; 0x9F; 0x98; 0x80] /\
  ~ utf8 [0xC0; 0x80] /\ ~ utf8 [0xED; 0xA0; 0x80] /\ ~ utf8 [0xF4; 0x90; 0x80; 0x80] /\ ~ utf8 [0xC3].
Proof.
  split; [apply from_utf8_iff; reflexivity|].
  repeat split; intros H; apply from_utf8_iff in H; vm_compute in H; discriminate.
Qed.

(* C20: strings() over an area made of good strings yields exactly them, then None
   for ever (the final state answers None and does not change). *)
Theorem C20_strings_roundtrip : forall (ss : list text) tail,
  Forall good_string ss -> (tail = [] \/ exists tl, tail = 0 :: tl) ->
  exists s', drains (lift_next strings_next) (strings_new (terminated ss ++ tail)) ss s' /\
             strings_next s' = (None, s').
Proof. exact drain_terminated_new. Qed.
Print Assumptions C20_strings_roundtrip.

(* On any area iteration reaches None, and the k-th item is string number k. *)
Theorem C20_strings_total : forall r : RawStructure,
  exists l s', drains (lift_next strings_next) (raw_strings r) l s'.
Proof. exact drains_strings_total. Qed.
Print Assumptions C20_strings_total.

Theorem C20_strings_enumerate : forall (r : RawStructure) l s' k t,
  drains (lift_next strings_next) (raw_strings r) l s' -> k <> 0 ->
  (nth_error l (N.to_nat (k - 1)) = Some t <-> string_number (strings r) k t).
Proof. exact strings_nth_number. Qed.
Print Assumptions C20_strings_enumerate.

(* With invalid UTF-8 inside, the iterator answers None and later resumes. *)
Theorem C20_fused_refuted : exists (l : list N) s1 s2 t,
  strings_next (strings_new l) = (None, s1) /\ strings_next s1 = (Some t, s2).
Proof. exists [0xFF; 0; 65; 0; 0]. do 3 eexists. split; reflexivity. Qed.
Print Assumptions C20_fused_refuted.

Example C20_example : Forall good_string [[65; 66]; [0xC3; 0xA9]] /\
  strings ex_raw = terminated [[65; 66]; [0xC3; 0xA9]] ++ [0].
Proof.
  split; [|reflexivity]. repeat constructor; try discriminate; try (cbn; lia); apply from_utf8_iff; reflexivity.
Qed.

(* C21: get succeeds exactly on ranges inside the formatted area, with the
   little-endian value (w is the size of the integer type, offset a usize). *)
Theorem C21_get_in_bounds : forall c w off (r : RawStructure) v,
  0 < w <= 16 -> off < 2 ^ usize_bits c -> len (data r) < 2 ^ (usize_bits c - 1) ->
  (get c w off r = Val (Ok v) <->
   4 <= off /\ off + w <= 4 + len (data r) /\ v = little (take w (drop (off - 4) (data r)))).
Proof. exact get_ok_iff. Qed.
Print Assumptions C21_get_in_bounds.

(* Otherwise it is InvalidSlice, except that offsets below 4, and offsets so large
   that offset-4+size leaves usize (32 or 64 bits), panic when overflow checks are on. *)
Theorem C21_get_out_of_bounds : forall c w off (r : RawStructure),
  0 < w <= 16 -> off < 2 ^ usize_bits c -> len (data r) < 2 ^ (usize_bits c - 1) ->
  ~ (4 <= off /\ off + w <= 4 + len (data r)) ->
  get c w off r =
  if overflow_checks c && ((off <? 4) || (2 ^ usize_bits c <=? off - 4 + w)) then Panic else Val (Err InvalidSlice).
Proof. exact get_else. Qed.
Print Assumptions C21_get_out_of_bounds.

Theorem C21_get_slice : forall c size off (r : RawStructure),
  size < 2 ^ usize_bits c -> off < 2 ^ usize_bits c -> len (data r) < 2 ^ (usize_bits c - 1) ->
  get_slice c off size r =
  if (off <? 4) || (2 ^ usize_bits c <=? off - 4 + size)
  then if overflow_checks c then Panic else Val None
  else Val (if off + size <=? 4 + len (data r) then Some (take size (drop (off - 4) (data r))) else None).
Proof. exact get_slice_all. Qed.
Print Assumptions C21_get_slice.

Theorem C21_get_string : forall c off (r : RawStructure) t,
  off < 2 ^ usize_bits c -> len (data r) < 2 ^ (usize_bits c - 1) ->
  (get_string c off r = Val (Ok t) <-> exists k, field_is r off 1 k /\ text_number r k t).
Proof. exact get_string_ok_iff. Qed.
Print Assumptions C21_get_string.

Definition ex_checked : cfg := {| overflow_checks := true; flat_memory := false; pointer_width := W64 |}.
Definition ex_release : cfg := {| overflow_checks := false; flat_memory := false; pointer_width := W64 |}.
Example C21_example :
  get ex_checked 2 5 ex_raw = Val (Ok 0x0302) /\ get ex_checked 2 7 ex_raw = Val (Err InvalidSlice) /\
  get ex_checked 2 3 ex_raw = Panic /\ get ex_release 2 3 ex_raw = Val (Err InvalidSlice) /\
  get_string ex_checked 5 ex_raw = Val (Ok [0xC3; 0xA9]) /\ len (data ex_raw) < 2 ^ (usize_bits ex_checked - 1).
Proof. repeat split. Qed.
