(* The methods that every iterator of the crate has besides next.  The crate's ten
   `impl Iterator for` blocks (lib.rs:464 Structures, lib.rs:672 StructureStrings,
   bitfield.rs:178, 269, 291, 003_enclosure.rs:454, 009_system_slots.rs:862,
   013_bios_language.rs:80, 014_group_associations.rs:66, 015_system_event_log/mod.rs:373)
   define next only, so that the other methods are the ones that core::iter::Iterator
   provides.  These are modelled here, over any next.  They are loops: each takes a number
   of turns that it may go round, and gives None if that is too few.
   Simplification: a closure of the caller returns (it neither panics nor loops). *)
From Verif Require Import Base.
Local Open Scope N_scope.

Inductive flow (B R : Type) : Type := Continue (b : B) | Break (r : R).
Arguments Continue {B R} b.
Arguments Break {B R} r.

Section Methods.
Context {S A : Type} (c : cfg) (next : S -> out (option A * S)).

(* core, Iterator::try_fold: `while let Some(x) = self.next() { accum = f(accum, x)?; }`.
   [f] may panic: count below *)
Fixpoint try_fold {B R : Type} (turns : nat) (f : B -> A -> out (flow B R)) (accum : B) (s : S) : option (out (flow B R * S)) :=
  match turns with
  | O => None
  | Datatypes.S turns =>
    match next s with
    | Panic => Some Panic
    | UB => Some UB
    | Val (None, s') => Some (Val (Continue accum, s'))
    | Val (Some x, s') =>
      match f accum x with
      | Panic => Some Panic
      | UB => Some UB
      | Val (Continue accum) => try_fold turns f accum s'
      | Val (Break r) => Some (Val (Break r, s'))
      end
    end
  end.
(* what a method makes of the result of its loop *)
Definition then_ {X Y : Type} (m : option (out X)) (f : X -> Y) : option (out Y) :=
  option_map (fun o => match o with Val x => Val (f x) | Panic => Panic | UB => UB end) m.
(* core, Iterator::fold: no way to break *)
Definition fold {B : Type} (turns : nat) (f : B -> A -> out B) (init : B) (s : S) : option (out B) :=
  then_ (try_fold turns (fun b x => match f b x with Val b => Val (@Continue B B b) | Panic => Panic | UB => UB end) init s)
    (fun r => match fst r with Continue b | Break b => b end).

(* core, Iterator::count: `self.fold(0, |count, _| count + 1)`, in usize *)
Definition count (turns : nat) (s : S) : option (out N) := fold turns (fun n _ => u_add c (usize_bits c) n 1) 0 s.
(* core, Iterator::last: `self.fold(None, |_, x| Some(x))` *)
Definition last (turns : nat) (s : S) : option (out (option A)) := fold turns (fun _ x => Val (Some x)) None s.
(* `collect::<Vec<_>>()`, and what the body of a `for` loop gets to see; a vector is the
   list of its elements *)
Definition collect (turns : nat) (s : S) : option (out (list A)) := fold turns (fun l x => Val (l ++ [x])) [] s.

(* core, Iterator::find, find_map, position, any, all: they stop as soon as they know, and
   leave the iterator behind the last item they took *)
Definition find (turns : nat) (p : A -> bool) (s : S) : option (out (option A * S)) :=
  then_ (try_fold turns (fun (_ : unit) x => Val (if p x then Break x else Continue tt)) tt s)
    (fun r => (match fst r with Break x => Some x | Continue _ => None end, snd r)).
Definition find_map {B : Type} (turns : nat) (f : A -> option B) (s : S) : option (out (option B * S)) :=
  then_ (try_fold turns (fun (_ : unit) x => Val (match f x with Some b => Break b | None => Continue tt end)) tt s)
    (fun r => (match fst r with Break x => Some x | Continue _ => None end, snd r)).
Definition position (turns : nat) (p : A -> bool) (s : S) : option (out (option N * S)) :=
  then_ (try_fold turns (fun i x => if p x then Val (Break i) else match u_add c (usize_bits c) i 1 with Val i => Val (Continue i) | Panic => Panic | UB => UB end) 0 s)
    (fun r => (match fst r with Break i => Some i | Continue _ => None end, snd r)).
Definition any (turns : nat) (p : A -> bool) (s : S) : option (out (bool * S)) :=
  then_ (try_fold turns (fun (_ : unit) x => Val (if p x then Break tt else Continue tt)) tt s)
    (fun r => (match fst r with Break _ => true | Continue _ => false end, snd r)).
Definition all (turns : nat) (p : A -> bool) (s : S) : option (out (bool * S)) :=
  then_ (try_fold turns (fun (_ : unit) x => Val (if p x then Continue tt else Break tt)) tt s)
    (fun r => (match fst r with Break _ => false | Continue _ => true end, snd r)).

(* core, Iterator::nth: `self.advance_by(n).ok()?; self.next()`, where advance_by takes n items
   and gives up at the first None *)
Fixpoint advance_by (n : nat) (s : S) : out (bool * S) :=
  match n with
  | O => Val (true, s)
  | Datatypes.S n => let! (x, s') := next s in match x with Some _ => advance_by n s' | None => Val (false, s') end
  end.
Definition nth (n : N) (s : S) : out (option A * S) :=
  let! (there, s') := advance_by (N.to_nat n) s in
  if there then next s' else Val (None, s').
End Methods.

(* `by_ref().collect::<Result<Vec<_>, _>>()`: the values, or the first error *)
Definition collect_results {S A E : Type} (next : S -> out (option (result E A) * S)) (turns : nat) (s : S) : option (out (result E (list A) * S)) :=
  then_ (try_fold next turns (fun l x => Val (match x with Ok a => Continue (l ++ [a]) | Err e => Break e end)) [] s)
    (fun r => (match fst r with Continue l => Ok l | Break e => Err e end, snd r)).
