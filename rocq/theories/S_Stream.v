(* Specification for C95: which values can be told apart by the bytes a hasher receives. *)
From Coq Require Import String.
From Verif Require Import Base G_Enums M_Raw M_Enclosure M_SystemSlots M_SystemEventLog M_Iter M_Hash M_Eq G_Eq Spec S_Show.
Local Open Scope N_scope.

(* No value of the type feeds bytes that begin with those of a value that differs from it:
   this is the part of the contract of `Hash` called "prefix collisions". *)
Definition prefix_free {A} (ok : A -> Prop) (eq : A -> A -> bool) (bytes : A -> list N) : Prop :=
  forall x y l m, ok x -> ok y -> bytes x ++ l = bytes y ++ m -> eq x y = true /\ l = m.

(* what a machine with 32 or 64 bits can hold, and lists of whole records *)
Definition sized (p : part) : Prop :=
  match p with
  | Num Usize n => n < 2 ^ 32
  | Slice l => len l < 2 ^ 32
  | Peers x => len (peer_chunks x) mod 5 = 0
  | Descriptors x => 0 < descriptors_size x /\ len (descriptors_data x) < 2 ^ 32
  | Elements x => ce_record_length x = 0 -> ce_chunks x = []
  | _ => True
  end.
Definition solid {A} (parts : A -> list part) (x : A) : Prop := well_typed parts x /\ Forall sized (parts x).

(* the two kinds of structures that end in a list without a mark at its end *)
Definition has_records (x : Structure) : Prop :=
  match x with
  | SEnclosure e => enclosure_contained_elements e <> None
  | SSystemEventLog s => log_descriptors s <> None
  | _ => False
  end.
