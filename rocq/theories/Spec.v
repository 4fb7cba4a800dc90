(* The specification vocabulary: what the property theorems are stated with.
   Nothing here mentions a function of the model except [len], [take], [drop] of
   Base (length, prefix and suffix of a list, indexed by N) and the data types. *)
From Coq Require Import String.
From Verif Require Import Base G_Enums M_Raw.
Local Open Scope N_scope.

(* ------------------------------------------------------------------- bytes *)

Definition is_byte (b : N) : Prop := b < 256.
Definition all_bytes (l : list N) : Prop := Forall is_byte l.

(* the number a little-endian byte string stands for *)
Definition little (l : list N) : N := fold_right (fun b acc => b + 256 * acc) 0 l.

(* byte at a position *)
Definition byte_at (l : list N) (i : N) : option N := nth_error l (N.to_nat i).

(* sum of a list *)
Definition total (l : list N) : N := fold_right N.add 0 l.

(* --------------------------------------------------------------- iterators *)

(* [drains next s l s']: calling next again and again from s yields the items l
   and then None, leaving state s'. *)
Inductive drains {S A : Type} (next : S -> out (option A * S)) : S -> list A -> S -> Prop :=
| drains_nil s s' : next s = Val (None, s') -> drains next s [] s'
| drains_cons s a s1 l s' :
    next s = Val (Some a, s1) -> drains next s1 l s' -> drains next s (a :: l) s'.

(* How an iteration can end. *)
Inductive ending (S : Type) : Type := Exhausted (s : S) | Panicked | Undefined.
Arguments Exhausted {S} s.
Arguments Panicked {S}.
Arguments Undefined {S}.

(* [runs next s l e]: the calls of next from s yield the items l and then end as e. *)
Inductive runs {S A : Type} (next : S -> out (option A * S)) : S -> list A -> ending S -> Prop :=
| runs_none s s' : next s = Val (None, s') -> runs next s [] (Exhausted s')
| runs_panic s : next s = Panic -> runs next s [] Panicked
| runs_ub s : next s = UB -> runs next s [] Undefined
| runs_some s a s1 l e : next s = Val (Some a, s1) -> runs next s1 l e -> runs next s (a :: l) e.

(* the next n calls all answer None; every later call answers None *)
Fixpoint nones {S A : Type} (next : S -> out (option A * S)) (n : nat) (s : S) : Prop :=
  match n with
  | O => True
  | Datatypes.S m => exists s', next s = Val (None, s') /\ nones next m s'
  end.
Definition none_forever {S A : Type} (next : S -> out (option A * S)) (s : S) : Prop :=
  forall n, nones next n s.

(* an iterator whose next cannot fail *)
Definition lift_next {S A : Type} (f : S -> option A * S) (s : S) : out (option A * S) := Val (f s).

(* ------------------------------------------------------------------- UTF-8 *)

(* Unicode scalar values and their UTF-8 encoding (RFC 3629) *)
Definition scalar (c : N) : Prop := c < 0xD800 \/ (0xDFFF < c /\ c < 0x110000).

Definition utf8_encode (c : N) : list N :=
  if c <? 0x80 then [c]
  else if c <? 0x800 then [0xC0 + c / 64; 0x80 + c mod 64]
  else if c <? 0x10000 then [0xE0 + c / 4096; 0x80 + c / 64 mod 64; 0x80 + c mod 64]
  else [0xF0 + c / 262144; 0x80 + c / 4096 mod 64; 0x80 + c / 64 mod 64; 0x80 + c mod 64].

(* the byte string is the UTF-8 form of some text *)
Definition utf8 (l : list N) : Prop := exists cs, Forall scalar cs /\ l = flat_map utf8_encode cs.

(* ----------------------------------------------------------------- strings *)

(* a string a structure may carry: not empty, no NUL inside, UTF-8 *)
Definition good_string (t : text) : Prop := t <> [] /\ ~ In 0 t /\ utf8 t.

(* the strings of a list, each followed by a NUL *)
Definition terminated (ss : list text) : list N := concat (map (fun s => s ++ [0]) ss).

(* string number k (counted from 1) of a string area is t: k-1 good strings come
   before it, each ended by a NUL, and t is followed by a NUL or the end *)
Definition string_number (area : list N) (k : N) (t : text) : Prop :=
  exists before rest,
    len before + 1 = k /\ Forall good_string before /\ good_string t /\
    area = terminated before ++ t ++ rest /\ (rest = [] \/ exists rest', rest = 0 :: rest').

(* what a string field with value k stands for: 0 is the empty text *)
Definition text_number (r : RawStructure) (k : N) (t : text) : Prop :=
  (k = 0 /\ t = []) \/ (k <> 0 /\ string_number (strings r) k t).

(* ------------------------------------------------------------------ fields *)

(* the value of the w bytes at [offset] of the structure, offsets counted as in
   the SMBIOS tables (the header occupies offsets 0 to 3), if they lie inside the
   formatted area *)
Definition field (r : RawStructure) (offset w : N) : option N :=
  if (4 <=? offset) && (offset + w <=? 4 + len (data r))
  then Some (little (take w (drop (offset - 4) (data r))))
  else None.

Definition field_is (r : RawStructure) (offset w v : N) : Prop := field r offset w = Some v.

(* the one-byte field at [offset] is the number of the text t *)
Definition text_field (r : RawStructure) (offset : N) (t : text) : Prop :=
  exists k, field_is r offset 1 k /\ text_number r k t.

(* the field holds a string number without a string: decoding reports this error *)
Definition bad_text_field (r : RawStructure) (offset : N) (e : MalformedStructureError) : Prop :=
  exists k, field_is r offset 1 k /\ (forall t, ~ text_number r k t) /\
            e = InvalidStringIndex (info r) (handle r) k.

(* the first of the fields (in this order) without a string decides the error *)
Fixpoint first_bad_text (r : RawStructure) (offsets : list N) (e : MalformedStructureError) : Prop :=
  match offsets with
  | [] => False
  | o :: os => bad_text_field r o e \/ ((exists t, text_field r o t) /\ first_bad_text r os e)
  end.

(* SMBIOS versions as pairs, lexicographic order *)
Definition before_version (v : SmbiosVersion) (ma mi : N) : Prop :=
  major v < ma \/ (major v = ma /\ minor v < mi).
Definition from_version (v : SmbiosVersion) (ma mi : N) : Prop :=
  ma < major v \/ (major v = ma /\ mi <= minor v).
Definition version_is (v : SmbiosVersion) (ma mi : N) : Prop := major v = ma /\ minor v = mi.
