(* Specification for C98: code that callers write to read a raw structure.
   A client is any sequence of uses of the public interface of RawStructure (lib.rs:570-578,
   the public fields; lib.rs:623-657, the public methods), in which what is asked next may
   depend in any way on the answers so far. *)
From Coq Require Import String.
From Verif Require Import Base G_Enums M_Raw Spec S_Iter.
Local Open Scope N_scope.

Inductive client (A : Type) : Type :=
| Done (a : A)
| Fields (k : SmbiosVersion -> InfoType -> N -> N -> list N -> client A)
| Get (w offset : N) (k : res N -> client A)
| GetOwn (w offset : N) (k : list N -> client A)
| GetSlice (offset size : N) (k : option (list N) -> client A)
| GetString (offset : N) (k : res text -> client A)
| FindString (index : N) (k : res text -> client A).
Arguments Done {A}. Arguments Fields {A}. Arguments Get {A}. Arguments GetOwn {A}.
Arguments GetSlice {A}. Arguments GetString {A}. Arguments FindString {A}.

(* lib.rs:643-649 `get` for a type of w bytes that the caller made readable (the trait
   TryFromBytes of lib.rs:581-583 is public): the slice its try_from_bytes is given *)
Definition own_slice (c : cfg) (w offset : N) (r : RawStructure) : out (list N) :=
  let! start := u_sub c (usize_bits c) offset 4 in
  let! fin := u_add c (usize_bits c) start w in
  Val (match slice_get (data r) start fin with Some s => s | None => [] end).

Fixpoint run_client {A} (c : cfg) (p : client A) (r : RawStructure) : out A :=
  match p with
  | Done a => Val a
  | Fields k => run_client c (k (version r) (info r) (length_ r) (handle r) (data r)) r
  | Get w o k => let! x := get c w o r in run_client c (k x) r
  | GetOwn w o k => let! x := own_slice c w o r in run_client c (k x) r
  | GetSlice o n k => let! x := get_slice c o n r in run_client c (k x) r
  | GetString o k => let! x := get_string c o r in run_client c (k x) r
  | FindString i k => run_client c (k (find_string r (i mod 256))) r (* the parameter is a u8 *)
  end.

(* offsets are counted from the header, which has four bytes; the end of what is asked for
   can be written down on a machine of 32 bits *)
Definition asks_well (offset size : N) : Prop := 4 <= offset /\ offset - 4 + size < 2 ^ 32.
(* a client that asks well whatever it is answered *)
Fixpoint careful {A} (p : client A) : Prop :=
  match p with
  | Done _ => True
  | Fields k => forall v i l h d, careful (k v i l h d)
  | Get w o k => asks_well o w /\ forall x, careful (k x)
  | GetOwn w o k => asks_well o w /\ forall x, careful (k x)
  | GetSlice o n k => asks_well o n /\ forall x, careful (k x)
  | GetString o k => asks_well o 1 /\ forall x, careful (k x)
  | FindString i k => forall x, careful (k x)
  end.

(* what can be read from a structure: its fields, and its texts by number *)
Definition reads_same (r r' : RawStructure) : Prop :=
  version r = version r' /\ info r = info r' /\ length_ r = length_ r' /\ handle r = handle r' /\ data r = data r' /\
  forall k, k < 256 -> find_string r k = find_string r' k.
