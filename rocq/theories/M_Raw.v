(* Model of the raw-structure half of /repo/src/lib.rs: versions, errors,
   RawStructure and its accessors, the string iterator and core's from_utf8. *)
From Coq Require Import String.
From Verif Require Import Base G_Enums.
Local Open Scope N_scope.

(* lib.rs:289-294 `struct SmbiosVersion`; the derived PartialOrd compares the
   fields in order, i.e. lexicographically.  The decoders that match on
   `(structure.version.major, structure.version.minor)` compare tuples, which is
   the same order. *)
Record SmbiosVersion := { major : N; minor : N }.

Definition version_lt (a b : SmbiosVersion) : bool :=
  (major a <? major b) || ((major a =? major b) && (minor a <? minor b)).
Definition version_eq (a b : SmbiosVersion) : bool :=
  (major a =? major b) && (minor a =? minor b).
Definition version_ge (a b : SmbiosVersion) : bool := negb (version_lt a b).
Definition version_gt (a b : SmbiosVersion) : bool := version_lt b a.
Definition version_le (a b : SmbiosVersion) : bool := negb (version_lt b a).

(* lib.rs:296-303 `impl From<(usize, usize)> for SmbiosVersion`, `as u8` on both *)
Definition version_of (a b : N) : SmbiosVersion := {| major := cast 8 a; minor := cast 8 b |}.

(* lib.rs:392-405 `enum MalformedStructureError`; the TryFromSliceError payload of
   InvalidSlice carries no information and is dropped *)
Inductive MalformedStructureError : Type :=
| BadSize (offset length : N)
| UnterminatedStrings (offset : N)
| InvalidStringIndex (info : InfoType) (handle index : N)
| InvalidSlice
| InvalidFormattedSectionLength (info : InfoType) (handle : N) (spec : string) (length : N).

(* lib.rs:570-578 `struct RawStructure`.  [after] is not a field of the Rust type:
   it is the memory of the caller's buffer that follows [data] (the string area
   and whatever comes after it), needed because let_as_struct! reads through the
   data pointer without a length check. *)
Record RawStructure := {
  version : SmbiosVersion;
  info : InfoType;
  length_ : N;
  handle : N;
  data : list N;
  strings : list N;
  after : list N
}.

Definition res := result MalformedStructureError.

(* lib.rs:69-76 `let_as_struct!`: copies [n] bytes from the start of the slice,
   whatever its length. *)
Definition read_packed (c : cfg) (n : N) (r : RawStructure) : out (list N) :=
  if n <=? len (data r) then Val (take n (data r))
  else if flat_memory c && (n <=? len (data r ++ after r)) then Val (take n (data r ++ after r))
  else UB.

(* core::str::from_utf8: is the byte sequence well-formed UTF-8?  (core's
   run_utf8_validation: first-byte widths and second-byte ranges of the Unicode
   standard, table 3-7.) *)
Definition is_cont (b : N) : bool := (0x80 <=? b) && (b <=? 0xBF).
Definition within (lo hi b : N) : bool := (lo <=? b) && (b <=? hi).

Fixpoint from_utf8 (l : list N) : bool :=
  match l with
  | [] => true
  | b0 :: r0 =>
    if b0 <? 0x80 then from_utf8 r0
    else if within 0xC2 0xDF b0 then
      match r0 with
      | b1 :: r1 => is_cont b1 && from_utf8 r1
      | _ => false
      end
    else if within 0xE0 0xEF b0 then
      match r0 with
      | b1 :: b2 :: r2 =>
        (if b0 =? 0xE0 then within 0xA0 0xBF b1
         else if b0 =? 0xED then within 0x80 0x9F b1
         else is_cont b1) && is_cont b2 && from_utf8 r2
      | _ => false
      end
    else if within 0xF0 0xF4 b0 then
      match r0 with
      | b1 :: b2 :: b3 :: r3 =>
        (if b0 =? 0xF0 then within 0x90 0xBF b1
         else if b0 =? 0xF4 then within 0x80 0x8F b1
         else is_cont b1) && is_cont b2 && is_cont b3 && from_utf8 r3
      | _ => false
      end
    else false
  end.

(* slice.split(|elm| *elm == 0).nth(0): the bytes before the first zero *)
Fixpoint until_nul (l : list N) : list N :=
  match l with
  | [] => []
  | b :: r => if b =? 0 then [] else b :: until_nul r
  end.

(* lib.rs:660-671 `struct StructureStrings` and new *)
Record StructureStrings := { bytes : list N; start : N }.
Definition strings_new (b : list N) : StructureStrings := {| bytes := b; start := 0 |}.

(* lib.rs:672-685 `Iterator for StructureStrings`, next.  `start += len + 1`
   cannot overflow: start + len is at most the length of a slice. *)
Definition strings_next (s : StructureStrings) : option text * StructureStrings :=
  match slice_get_from (bytes s) (start s) with
  | None => (None, s)
  | Some rest =>
    let slice := until_nul rest in
    match slice with
    | [] => (None, s)
    | _ :: _ =>
      let s' := {| bytes := bytes s; start := start s + (len slice + 1) |} in
      if from_utf8 slice then (Some slice, s') else (None, s')
    end
  end.

(* Iterator::nth as core provides it: call next n times, give up at the first
   None, then call next once more. *)
Fixpoint strings_nth (n : nat) (s : StructureStrings) : option text :=
  match n with
  | O => fst (strings_next s)
  | S m => match strings_next s with
           | (Some _, s') => strings_nth m s'
           | (None, _) => None
           end
  end.

(* Iterating to the first None (for loop, collect, count): the yielded texts, or
   None when the fuel ran out. *)
Fixpoint strings_collect (fuel : nat) (s : StructureStrings) : option (list text) :=
  match fuel with
  | O => None
  | S f => match strings_next s with
           | (Some t, s') => match strings_collect f s' with
                             | Some l => Some (t :: l)
                             | None => None
                             end
           | (None, _) => Some []
           end
  end.

(* lib.rs:613-615 `strings` *)
Definition raw_strings (r : RawStructure) : StructureStrings := strings_new (strings r).

(* lib.rs:623-631 `find_string` *)
Definition find_string (r : RawStructure) (idx : N) : res text :=
  if idx =? 0 then Ok []
  else match strings_nth (N.to_nat (idx - 1)) (raw_strings r) with
       | Some t => Ok t
       | None => Err (InvalidStringIndex (info r) (handle r) idx)
       end.

(* lib.rs:643-649 `get::<T>`, [w] = size_of::<T>() in bytes; lib.rs:585-609
   try_from_bytes succeeds exactly on slices of [w] bytes. *)
Definition get (c : cfg) (w offset : N) (r : RawStructure) : out (res N) :=
  let! start := u_sub c (usize_bits c) offset 4 in
  let! fin := u_add c (usize_bits c) start w in
  let slice := match slice_get (data r) start fin with Some s => s | None => [] end in
  Val (if len slice =? w then Ok (le slice) else Err InvalidSlice).

(* lib.rs:651-653 `get_slice` *)
Definition get_slice (c : cfg) (offset size : N) (r : RawStructure) : out (option (list N)) :=
  let! a := u_sub c (usize_bits c) offset 4 in
  let! b := u_add c (usize_bits c) a size in
  Val (slice_get (data r) a b).

(* lib.rs:655-657 `get_string` *)
Definition get_string (c : cfg) (offset : N) (r : RawStructure) : out (res text) :=
  let? idx := get c 1 offset r in
  Val (find_string r idx).

(* `structure.get::<T>(o).ok()` *)
Definition get_ok (c : cfg) (w offset : N) (r : RawStructure) : out (option N) :=
  omap ok (get c w offset r).
Definition get_string_ok (c : cfg) (offset : N) (r : RawStructure) : out (option text) :=
  omap ok (get_string c offset r).
