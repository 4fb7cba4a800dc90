(* How often the loops of /repo/src/lib.rs go round.  Each function returns what the
   function of the same name in M_Entry, M_Raw and M_Iter returns (proved in L_Cost),
   together with the number of turns. *)
From Verif Require Import Base G_Enums M_Raw M_Entry M_Iter.
Local Open Scope N_scope.

(* lib.rs:448-462 `find_nulnul`: one turn per value of i *)
Fixpoint find_nulnul_counted (i : N) (l : list N) : option N * N :=
  match l with
  | [] => (None, 0)
  | [_] => (None, 1)
  | a :: ((b :: _) as r) =>
      if (a =? 0) && (b =? 0) then (Some (i + 1), 1)
      else let (t, n) := find_nulnul_counted (i + 1) r in (t, 1 + n)
  end.

(* lib.rs:524-557 `next_raw`: the turns are those of find_nulnul, if it is called *)
Definition next_raw_counted (c : cfg) (s : Structures) : out (option (res RawStructure) * Structures) * N :=
  match u_add c 32 (idx s) size_of_header with
  | Panic => (Panic, 0)
  | UB => (UB, 0)
  | Val hdr_end =>
  if smbios_len_ s <? hdr_end then (Val (None, s), 0)
  else
  match slice_index_from (buffer s) (idx s) with
  | Panic => (Panic, 0)
  | UB => (UB, 0)
  | Val working =>
  if len working <? size_of_header then (UB, 0)
  else
  let kind := at_ 0 1 working in
  let hlen := at_ 1 1 working in
  let hhandle := at_ 2 2 working in
  match u_add c 32 (idx s) hlen with
  | Panic => (Panic, 0)
  | UB => (UB, 0)
  | Val strings_idx =>
  if smbios_len_ s <=? strings_idx then (Val (Some (Err (BadSize (idx s) hlen)), s), 0)
  else
  match slice_index_from (buffer s) strings_idx with
  | Panic => (Panic, 0)
  | UB => (UB, 0)
  | Val tail =>
  let (term, turns) := find_nulnul_counted 0 tail in
  (match term with
   | None => Val (Some (Err (UnterminatedStrings (idx s))), s)
   | Some terminator =>
     let strings_len := cast 32 (terminator + 1) in
     let! data_start := u_add c 32 (idx s) size_of_header in
     let! d := slice_index (buffer s) data_start strings_idx in
     let! strings_end := u_add c 32 strings_idx strings_len in
     let! str := slice_index (buffer s) strings_idx strings_end in
     Val (Some (Ok {|
            version := smbios_version s;
            info := InfoType_from kind;
            length_ := hlen;
            handle := hhandle;
            data := d;
            strings := str;
            after := drop strings_idx (buffer s) |}),
          {| smbios_version := smbios_version s; smbios_len_ := smbios_len_ s;
             idx := strings_end; buffer := buffer s |})
   end, turns)
  end end end end.

(* lib.rs:672-685 `StructureStrings::next`: `split` looks at the bytes of the string and
   the zero behind it, from_utf8 at most at the bytes of the string again *)
Definition strings_next_counted (s : StructureStrings) : (option text * StructureStrings) * N :=
  match slice_get_from (bytes s) (start s) with
  | None => ((None, s), 0)
  | Some rest =>
    let slice := until_nul rest in
    let looked := N.min (len rest) (len slice + 1) in
    match slice with
    | [] => ((None, s), looked)
    | _ :: _ =>
      let s' := {| bytes := bytes s; start := start s + (len slice + 1) |} in
      (if from_utf8 slice then (Some slice, s') else (None, s'), looked + len slice)
    end
  end.

(* Iterator::nth *)
Fixpoint strings_nth_counted (n : nat) (s : StructureStrings) : option text * N :=
  let '((o, s'), k) := strings_next_counted s in
  match n with
  | O => (o, k)
  | S m => match o with
           | Some _ => let (t, k') := strings_nth_counted m s' in (t, k + k')
           | None => (None, k)
           end
  end.

(* lib.rs:623-631 `find_string` *)
Definition find_string_counted (r : RawStructure) (idx : N) : res text * N :=
  if idx =? 0 then (Ok [], 0)
  else let (o, k) := strings_nth_counted (N.to_nat (idx - 1)) (raw_strings r) in
       (match o with
        | Some t => Ok t
        | None => Err (InvalidStringIndex (info r) (handle r) idx)
        end, k).

(* lib.rs:338-352 `find_signature`: one turn per paragraph *)
Fixpoint find_signature_counted (idx : N) (cs : list (list N)) : option (EntryPointFormat * N) * N :=
  match cs with
  | [] => (None, 0)
  | chunk :: cs' =>
    if starts_with chunk V2_SIG then (Some (FmtV2, idx * STRIDE), 1)
    else if starts_with chunk V3_SIG then (Some (FmtV3, idx * STRIDE), 1)
    else let (o, n) := find_signature_counted (idx + 1) cs' in (o, 1 + n)
  end.
