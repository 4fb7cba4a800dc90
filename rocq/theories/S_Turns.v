(* Specification for C100: programs that hold several iterators at once.
   A user is any program that asks the iterators it holds for their next items, in whatever
   order, and makes copies of them (derive(Clone): lib.rs:356, lib.rs:661, 003_enclosure.rs:134,
   009_system_slots.rs:327, 013_bios_language.rs:22, 014_group_associations.rs:26,
   015_system_event_log/mod.rs:140, bitfield.rs:32-51); what it does next may depend on all
   answers so far. Iterators are numbered from 0; a copy gets the next free number. *)
From Verif Require Import Base Spec.

Inductive user (A B : Type) : Type :=
| Finish (b : B)
| AskNext (i : nat) (k : option A -> user A B)
| MakeCopy (i : nat) (p : user A B).
Arguments Finish {A B}. Arguments AskNext {A B}. Arguments MakeCopy {A B}.

(* the list with its i-th entry replaced *)
Fixpoint put {S} (i : nat) (x : S) (l : list S) : list S :=
  match l, i with
  | [], _ => []
  | _ :: l, O => x :: l
  | y :: l, Datatypes.S i => y :: put i x l
  end.

(* With iterators whose states are [pool]: next replaces the state of the one it is called on,
   a copy has the state of its original. (A program cannot name an iterator it does not hold;
   here such a question is answered by None.) *)
Fixpoint run_user {S A B} (next : S -> out (option A * S)) (p : user A B) (pool : list S) : out B :=
  match p with
  | Finish b => Val b
  | AskNext i k =>
    match nth_error pool i with
    | None => run_user next (k None) pool
    | Some s => let! (a, s') := next s in run_user next (k a) (put i s' pool)
    end
  | MakeCopy i p =>
    match nth_error pool i with
    | None => run_user next p pool
    | Some s => run_user next p (pool ++ [s])
    end
  end.

(* What is to be expected: every iterator has a sequence of answers of its own, of which a call
   takes the first; a copy has the answers that are left of its original. *)
Fixpoint expected {A B} (p : user A B) (left : list (nat -> option A)) : B :=
  match p with
  | Finish b => b
  | AskNext i k =>
    match nth_error left i with
    | None => expected (k None) left
    | Some f => expected (k (f O)) (put i (fun n => f (S n)) left)
    end
  | MakeCopy i p =>
    match nth_error left i with
    | None => expected p left
    | Some f => expected p (left ++ [f])
    end
  end.

(* [answers next s f]: an iterator of its own in state s answers f 0, f 1, f 2, ... *)
Inductive calls {S A} (next : S -> out (option A * S)) : nat -> S -> (nat -> option A) -> Prop :=
| calls_none s f : calls next O s f
| calls_more n s s' f : next s = Val (f O, s') -> calls next n s' (fun n => f (Datatypes.S n)) -> calls next (Datatypes.S n) s f.
Definition answers {S A} (next : S -> out (option A * S)) (s : S) (f : nat -> option A) : Prop := forall n, calls next n s f.
