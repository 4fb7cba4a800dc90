(* Outcomes, machine arithmetic, byte lists and slices: the parts of the Rust
   language and of core that the model of /repo/src needs.  Nothing in this file
   models dmidecode itself. *)
From Coq Require Import String Ascii.
From Coq Require Export NArith Bool List.
Export ListNotations.
Local Open Scope N_scope.

(* ---------------------------------------------------------------- outcomes *)

(* Rust's Result. *)
Inductive result (E A : Type) : Type :=
| Ok (a : A)
| Err (e : E).
Arguments Ok {E A} a.
Arguments Err {E A} e.

(* What running a function can lead to: it returns, it panics, or it executes
   undefined behaviour (a read outside the object a pointer was made from). *)
Inductive out (A : Type) : Type :=
| Val (a : A)
| Panic
| UB.
Arguments Val {A} a.
Arguments Panic {A}.
Arguments UB {A}.

Definition obind {A B} (m : out A) (k : A -> out B) : out B :=
  match m with Val a => k a | Panic => Panic | UB => UB end.

(* `expr?` inside a function returning Result *)
Definition rbind {E A B} (m : out (result E A)) (k : A -> out (result E B)) : out (result E B) :=
  match m with
  | Val (Ok a) => k a
  | Val (Err e) => Val (Err e)
  | Panic => Panic
  | UB => UB
  end.

(* Result::ok *)
Definition ok {E A} (r : result E A) : option A :=
  match r with Ok a => Some a | Err _ => None end.

(* Result::map *)
Definition rmap {E A B} (f : A -> B) (r : result E A) : result E B :=
  match r with Ok a => Ok (f a) | Err e => Err e end.

(* Option::filter *)
Definition ofilter {A} (p : A -> bool) (o : option A) : option A :=
  match o with Some a => if p a then Some a else None | None => None end.

(* Option::and_then *)
Definition oand_then {A B} (o : option A) (k : A -> option B) : option B :=
  match o with Some a => k a | None => None end.

Definition omap {A B} (f : A -> B) (o : out A) : out B := obind o (fun a => Val (f a)).

Notation "'let!' x ':=' e 'in' k" := (obind e (fun x => k))
  (at level 200, x pattern, k at level 200, right associativity).
Notation "'let?' x ':=' e 'in' k" := (rbind e (fun x => k))
  (at level 200, x pattern, k at level 200, right associativity).

(* ----------------------------------------------------- build configuration *)

(* [overflow_checks]: the crate was compiled with integer overflow checks (the
   default of debug builds); otherwise overflow wraps.
   [flat_memory]: a read that leaves a sub-slice but stays inside the buffer the
   caller passed yields the bytes that follow (what hardware does); otherwise it
   is undefined behaviour (what the language says).
   [pointer_width]: the machine's usize has 32 or 64 bits. *)
Inductive width := W32 | W64.
Record cfg := { overflow_checks : bool; flat_memory : bool; pointer_width : width }.
Definition usize_bits (c : cfg) : N := match pointer_width c with W32 => 32 | W64 => 64 end.

(* ------------------------------------------------------ machine arithmetic *)

(* `x as uW` *)
Definition cast (w x : N) : N := x mod 2 ^ w.

(* a + b, a - b, a * b on W-bit unsigned integers *)
Definition u_add (c : cfg) (w a b : N) : out N :=
  if a + b <? 2 ^ w then Val (a + b)
  else if overflow_checks c then Panic else Val ((a + b) mod 2 ^ w).

Definition u_sub (c : cfg) (w a b : N) : out N :=
  if b <=? a then Val (a - b)
  else if overflow_checks c then Panic else Val (2 ^ w + a - b).

Definition u_mul (c : cfg) (w a b : N) : out N :=
  if a * b <? 2 ^ w then Val (a * b)
  else if overflow_checks c then Panic else Val ((a * b) mod 2 ^ w).

(* ------------------------------------------------------- bytes and slices *)

(* a text (&str) is the list of its bytes *)
Definition text := list N.

Definition len {A} (l : list A) : N := N.of_nat (length l).
Definition take {A} (n : N) (l : list A) : list A := firstn (N.to_nat n) l.
Definition drop {A} (n : N) (l : list A) : list A := skipn (N.to_nat n) l.

(* little-endian value of a byte list (uN::from_le_bytes) *)
Fixpoint le (l : list N) : N :=
  match l with
  | [] => 0
  | b :: r => b + 256 * le r
  end.

(* slice.get(a..b) *)
Definition slice_get {A} (l : list A) (a b : N) : option (list A) :=
  if (a <=? b) && (b <=? len l) then Some (take (b - a) (drop a l)) else None.

(* &slice[a..b] *)
Definition slice_index {A} (l : list A) (a b : N) : out (list A) :=
  match slice_get l a b with Some s => Val s | None => Panic end.

(* slice.get(a..) and &slice[a..] *)
Definition slice_get_from {A} (l : list A) (a : N) : option (list A) :=
  if a <=? len l then Some (drop a l) else None.
Definition slice_index_from {A} (l : list A) (a : N) : out (list A) :=
  match slice_get_from l a with Some s => Val s | None => Panic end.

(* slice[i] *)
Definition index {A} (l : list A) (i : N) : out A :=
  match nth_error l (N.to_nat i) with Some b => Val b | None => Panic end.

(* slice.starts_with(prefix) *)
Fixpoint starts_with (l p : list N) : bool :=
  match p, l with
  | [], _ => true
  | b :: p', a :: l' => (a =? b) && starts_with l' p'
  | _ :: _, [] => false
  end.

(* slice.chunks(n), n > 0: pieces of n elements, the last one may be shorter.
   [fuel] bounds the number of pieces; length l is always enough. *)
Fixpoint chunks_fuel {A} (fuel : nat) (n : N) (l : list A) : list (list A) :=
  match fuel with
  | O => []
  | S f => match l with [] => [] | _ :: _ => take n l :: chunks_fuel f n (drop n l) end
  end.
Definition chunks {A} (n : N) (l : list A) : list (list A) := chunks_fuel (length l) n l.

(* value of the [w] bytes at offset [o] of a copied packed structure.  The
   callers only use offsets inside the copied bytes. *)
Definition at_ (o w : N) (p : list N) : N := le (take w (drop o p)).

(* ------------------------------------------------------------ formatting *)

Local Open Scope string_scope.
Local Open Scope N_scope.

Definition digit (d : N) : string :=
  String (ascii_of_N (if d <? 10 then 48 + d else 55 + d)) EmptyString.

Fixpoint digits (fuel : nat) (base n : N) (acc : string) : string :=
  match fuel with
  | O => acc
  | S f => let acc := digit (n mod base) ++ acc in
           if n / base =? 0 then acc else digits f base (n / base) acc
  end.

(* `{}` of an unsigned integer, `{:X}` and `{:#X}`, `{:b}`: at most 64 digits
   are needed for the 64-bit values that are formatted *)
Definition show_dec (n : N) : string := digits 64 10 n "".
Definition show_hex (n : N) : string := digits 64 16 n "".
Definition show_hex_alt (n : N) : string := "0x" ++ show_hex n.
Definition show_bin (n : N) : string := digits 64 2 n "".
