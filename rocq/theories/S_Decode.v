(* Vocabulary for "the decoder returns what the SMBIOS table says": one clause per
   field, offsets counted as in the SMBIOS tables. *)
From Coq Require Import String.
From Verif Require Import Base G_Enums M_Raw Spec S_Enums.
Local Open Scope N_scope.

(* the field holds an enumerated code and x is the value the table names for it *)
Definition code_field {A} (r : RawStructure) (offset w : N) (codes : list (N * A)) (other : N -> A) (x : A) : Prop :=
  exists k, field_is r offset w k /\ x = meaning codes other k.

(* x has exactly those bits of k whose numbers are listed *)
Definition named_bits (named : list N) (k x : N) : Prop :=
  forall i, N.testbit x i = N.testbit k i && existsb (N.eqb i) named.

(* the field holds flags, of which only the named bits are reported *)
Definition flags_field (r : RawStructure) (offset w : N) (named : list N) (x : N) : Prop :=
  exists k, field_is r offset w k /\ named_bits named k x.

(* the field holds k and x is f of it *)
Definition mapped_field {A} (r : RawStructure) (offset w : N) (f : N -> A) (x : A) : Prop :=
  exists k, field_is r offset w k /\ x = f k.

(* an optional field: present, and as P says, exactly when c holds *)
Definition when {A} (c : Prop) (P : A -> Prop) (o : option A) : Prop :=
  (c /\ exists x, o = Some x /\ P x) \/ (~ c /\ o = None).

(* an optional number: present exactly when the formatted area reaches that far *)
Definition if_there (r : RawStructure) (offset w : N) (o : option N) : Prop := o = field r offset w.

(* the same, with one value standing for "unknown" *)
Definition if_there_but (r : RawStructure) (offset w unknown : N) (o : option N) : Prop :=
  (exists k, field_is r offset w k /\ k <> unknown /\ o = Some k) \/
  ((field r offset w = None \/ field_is r offset w unknown) /\ o = None).

(* the formatted area reaches past the field *)
Definition reaches (r : RawStructure) (offset w : N) : Prop := offset + w <= 4 + len (data r).

(* What a decoder asks for, in the order in which it does. *)
Inductive need := Num (offset w : N) | Text (offset : N).

Definition need_met (r : RawStructure) (n : need) : Prop :=
  match n with
  | Num o w => exists v, field_is r o w v
  | Text o => exists t, text_field r o t
  end.

(* how it fails: the field is missing, or holds the number of no string *)
Definition need_fails (r : RawStructure) (n : need) (e : MalformedStructureError) : Prop :=
  match n with
  | Num o w => field r o w = None /\ e = InvalidSlice
  | Text o => (field r o 1 = None /\ e = InvalidSlice) \/ bad_text_field r o e
  end.

(* the first need that fails decides the error *)
Fixpoint first_failure (r : RawStructure) (ns : list need) (e : MalformedStructureError) : Prop :=
  match ns with
  | [] => False
  | n :: ns => need_fails r n e \/ (need_met r n /\ first_failure r ns e)
  end.

(* the version is a.b or later, as a test *)
Definition since (v : SmbiosVersion) (a b : N) : bool := (a <? major v) || ((major v =? a) && (b <=? minor v)).

(* the structure whose formatted area also has the bytes that follow it *)
Definition stretched (r : RawStructure) : RawStructure := {|
  version := version r; info := info r; length_ := length_ r; handle := handle r;
  data := data r ++ after r; strings := strings r; after := [] |}.

(* the structure whose bytes the decoder reads, if the read stays inside memory *)
Definition readable (c : cfg) (n : N) (r b : RawStructure) : Prop :=
  (n <= len (data r) /\ b = r) \/
  (len (data r) < n <= len (data r) + len (after r) /\ flat_memory c = true /\ b = stretched r).

(* an optional enumerated code, or number seen through f: present exactly when the
   formatted area reaches that far *)
Definition code_if_there {A} (r : RawStructure) (offset w : N) (codes : list (N * A)) (other : N -> A) (o : option A) : Prop :=
  o = option_map (meaning codes other) (field r offset w).
Definition mapped_if_there {A} (r : RawStructure) (offset w : N) (f : N -> A) (o : option A) : Prop :=
  o = option_map f (field r offset w).
(* an optional text: present exactly when the field is there and has a string *)
Definition text_if_there (r : RawStructure) (offset : N) (o : option text) : Prop :=
  (exists t, text_field r offset t /\ o = Some t) \/ ((forall t, ~ text_field r offset t) /\ o = None).
(* the n bytes at the offset, if the formatted area has them *)
Definition bytes_at (r : RawStructure) (offset n : N) (l : list N) : Prop :=
  exists pre post, data r = pre ++ l ++ post /\ 4 + len pre = offset /\ len l = n.
Definition bytes_if_there (r : RawStructure) (offset n : N) (o : option (list N)) : Prop :=
  (exists l, bytes_at r offset n l /\ o = Some l) \/ (~ reaches r offset n /\ o = None).

(* how long the formatted area (with its header) may be, and the error otherwise *)
Inductive length_rule := Any | Exactly (n : N) | AtLeast (n : N).
Definition length_ok (r : RawStructure) (rule : length_rule) : Prop :=
  match rule with
  | Any => True
  | Exactly n => 4 + len (data r) = n
  | AtLeast n => n <= 4 + len (data r)
  end.
Definition length_error (r : RawStructure) (i : InfoType) (rule : length_rule) (e : MalformedStructureError) : Prop :=
  match rule with
  | Any => False
  | Exactly n => 4 + len (data r) <> n /\ e = InvalidFormattedSectionLength i (handle r) "" n
  | AtLeast n => 4 + len (data r) < n /\ e = InvalidFormattedSectionLength i (handle r) "minimum of " n
  end.
