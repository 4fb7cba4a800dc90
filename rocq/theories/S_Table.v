(* Specification used by P_Table: decoding a list of structures, encoded entry
   points.  Layouts from the SMBIOS specification, sections 5.2.1 and 5.2.2. *)
From Verif Require Import Base G_Enums M_Raw M_Entry M_Iter Spec S_Entry S_Iter.
Local Open Scope N_scope.

(* how a run ended, without the state *)
Inductive finish := Finished | Crashed | Overread.
Definition finish_of (e : ending Structures) : finish :=
  match e with Exhausted _ => Finished | Panicked => Crashed | Undefined => Overread end.

(* decoding structures one after the other until one of the decoders crashes *)
Inductive decode_all (c : cfg) : list RawStructure -> list (res Structure) -> finish -> Prop :=
| none_left : decode_all c [] [] Finished
| one_decoded r rs x l f : dispatch c r = Val x -> decode_all c rs l f -> decode_all c (r :: rs) (x :: l) f
| one_panics r rs : dispatch c r = Panic -> decode_all c (r :: rs) [] Crashed
| one_overreads r rs : dispatch c r = UB -> decode_all c (r :: rs) [] Overread.

(* the announced length fits the table: up to three bytes more (no room for a
   header), or, from version 3 on, any more when an End structure stops the reader *)
Definition announces (v : SmbiosVersion) (n : N) (ss : list encodable) : Prop :=
  len (table ss) <= n < len (table ss) + 4 \/
  (3 <= major v /\ (exists s, In s ss /\ e_type s = 127) /\ len (table ss) <= n).

(* n as w bytes, little endian *)
Fixpoint to_bytes (w : nat) (n : N) : list N :=
  match w with O => [] | S w' => n mod 256 :: to_bytes w' (n / 256) end.

(* the byte that makes a sum zero modulo 256 *)
Definition complement (l : list N) : N := (256 - total l mod 256) mod 256.

(* what an entry point announces; fields one version lacks are ignored there *)
Record announcement := {
  a_kind : EntryPointFormat;
  a_major : N; a_minor : N; a_docrev : N; a_revision : N;
  a_max_structure : N; a_length : N; a_address : N; a_count : N; a_bcd : N
}.
Definition announcement_ok (a : announcement) : Prop :=
  2 <= a_major a < 256 /\ a_minor a < 256 /\ a_docrev a < 256 /\ a_revision a < 256 /\ a_bcd a < 256 /\
  a_length a < match a_kind a with FmtV2 => 2 ^ 16 | FmtV3 => 2 ^ 32 end /\
  a_address a < match a_kind a with FmtV2 => 2 ^ 32 | FmtV3 => 2 ^ 64 end.

(* "_DMI_" and the fields its own checksum covers *)
Definition intermediate (a : announcement) : list N :=
  let fields := to_bytes 2 (a_length a) ++ to_bytes 4 (a_address a) ++ to_bytes 2 (a_count a) ++ [a_bcd a] in
  [95; 68; 77; 73; 95] ++ complement ([95; 68; 77; 73; 95] ++ fields) :: fields.

(* the entry point's bytes with checksum x *)
Definition entry_with (x : N) (a : announcement) : list N :=
  match a_kind a with
  | FmtV2 => [95; 83; 77; 95] ++ [x; 31; a_major a; a_minor a] ++ to_bytes 2 (a_max_structure a) ++
             [a_revision a; 0; 0; 0; 0; 0] ++ intermediate a
  | FmtV3 => [95; 83; 77; 51; 95] ++ [x; 24; a_major a; a_minor a; a_docrev a; a_revision a; 0] ++
             to_bytes 4 (a_length a) ++ to_bytes 8 (a_address a)
  end.
Definition encode_entry (a : announcement) : list N := entry_with (complement (entry_with 0 a)) a.

(* the same iterator over a longer buffer *)
Definition longer (s : Structures) (rest : list N) : Structures :=
  {| smbios_version := smbios_version s; smbios_len_ := smbios_len_ s; idx := idx s; buffer := buffer s ++ rest |}.
