(* Specification for C45-C48: bit fields and the tables that describe them. *)
From Coq Require Import String.
From Verif Require Import Base M_Bitfield Spec.
Local Open Scope N_scope.

(* one flag per entry of the table; the first one is for bit p of v *)
Fixpoint flags (v p : N) (entries : Layout) : list Flag :=
  match entries with
  | [] => []
  | t :: rest => {| position := p; is_set := N.testbit v p; type_ := t |} :: flags v (p + 1) rest
  end.

Definition entry (l : Layout) (p : N) : option FlagType := nth_error l (N.to_nat p).

(* positions go up *)
Fixpoint ascending (l : list N) : Prop :=
  match l with
  | [] => True
  | a :: rest => match rest with [] => True | b :: _ => a < b /\ ascending rest end
  end.

(* A maximal run: the bits a to b are reserved with the text d, the neighbours are not. *)
Definition run (l : Layout) (d : string) (a b : N) : Prop :=
  a <= b /\ (forall p, a <= p <= b -> entry l p = Some (FReserved d)) /\
  (0 < a -> entry l (a - 1) <> Some (FReserved d)) /\ entry l (b + 1) <> Some (FReserved d).

(* the bit before a is reserved, too (with another text) *)
Definition follows_run (l : Layout) (a : N) : Prop := 0 < a /\ exists d, entry l (a - 1) = Some (FReserved d).

(* the condition under which the reported ends are right *)
Definition no_single_second (l : Layout) : Prop := forall d a, run l d a a -> ~ follows_run l a.

(* The range reported for a run: right, except that a run of one bit directly after
   another run is reported to end at bit 0. *)
Definition reported (l : Layout) (x : ReservedRange) : Prop :=
  exists b, run l (description x) (range_start x) b /\
  ((b = range_start x /\ follows_run l b /\ range_end x = 0) \/
   (~ (b = range_start x /\ follows_run l b) /\ range_end x = b)).

(* the positions of the flags that are set *)
Definition set_positions (fs : list Flag) : list N := map position (filter is_set fs).

(* what an item of the layout! macro stands for *)
Definition expand (i : LayoutItem) : Layout :=
  match i with
  | Short s => [Significant s s]
  | Long s l => [Significant s l]
  | Res d n => repeat (FReserved d) (N.to_nat n)
  end.
