(* Lemmas for property C77: which values come out. *)
From Coq Require Import ZArith Lia ZifyBool ZifyNat ZifyN.
From Verif Require Import Base G_Enums M_Raw M_SystemEventLog S_Enums S_Values L_Hardware.
Ltac Zify.zify_post_hook ::= Z.div_mod_to_equations.
Local Open Scope N_scope.

Definition unnamed {A} (codes : list (N * A)) (v : N) : bool := match named codes v with None => v <? 256 | Some _ => false end.
Lemma unnamed_nameless {A} (codes : list (N * A)) v : unnamed codes v = true -> nameless codes 256 v.
Proof. unfold unnamed, nameless. destruct (named codes v); intros H; [discriminate|]. split; [apply N.ltb_lt, H|reflexivity]. Qed.
Lemma values_out {A} (from : N -> A) (P : A -> Prop) (Pb : A -> bool) :
  (forall x, Pb x = true -> P x) -> forallb (fun k => Pb (from k)) (below 256) = true -> forall x, comes_out from 256 x -> P x.
Proof. intros H F x [k [L <-]]. apply H. apply (by_bytes (fun k => Pb (from k)) F k L). Qed.
Lemma value_in {A} (from : N -> A) k x : k < 256 -> from k = x -> comes_out from 256 x.
Proof. intros L E. exists k. auto. Qed.
Lemma nameless_in {A} (from : N -> A) codes other v :
  (forall k, from k = meaning codes other k) -> nameless codes 256 v -> comes_out from 256 (other v).
Proof. intros C [L E]. exists v. split; [exact L|]. rewrite C. unfold meaning. rewrite E. reflexivity. Qed.

(* codes: that from follows the table; tag, value: discriminant and payload; dead: the
   discriminants that never come out *)
Ltac values from codes tag value table dead :=
  let x := fresh "x" in intros x; split;
  [ revert x; apply (values_out from _ (fun x => match value x with Some v => unnamed table v | None => negb (existsb (N.eqb (tag x)) dead) end));
    [ intros []; cbn [tag value]; intros H; try exact I; first [apply unnamed_nameless, H | vm_compute in H; discriminate H]
    | vm_compute; reflexivity ]
  | destruct x;
    first [ intros [] ; fail
          | intros _; match goal with |- comes_out _ _ ?y =>
              let o := eval vm_compute in (find (fun k => tag (from k) =? tag y) (below 256)) in
              match o with Some ?k => apply (value_in from k); [reflexivity|vm_compute; reflexivity] end end
          | apply nameless_in, codes ] ].

Lemma named_in {A} (codes : list (N * A)) k a : named codes k = Some a -> In (k, a) codes.
Proof.
  induction codes as [|[k' b] codes IH]; cbn [named]; intros H; [discriminate|].
  destruct (N.eqb_spec k k') as [->|]; [injection H as ->; left; reflexivity|right; apply IH, H].
Qed.
Lemma named_above {A} (codes : list (N * A)) b v : forallb (fun p => fst p <? b) codes = true -> b <= v -> named codes v = None.
Proof.
  intros F L. destruct (named codes v) as [a|] eqn:E; [|reflexivity]. apply named_in in E. rewrite forallb_forall in F.
  specialize (F _ E). cbn [fst] in F. lia.
Qed.

Lemma management_values x : comes_out SystemManagementType_from (2 ^ 32) x <->
  match x with
  | SMT_OutOfRangeVoltageReserved v => 0x07 <= v <= 0x0F
  | SMT_OutOfRangeTemperatureReserved v => 0x15 <= v <= 0x1F
  | SMT_OutOfRangeFan v => v < 8
  | SMT_OutOfRangeSystemManagementProbe v => v < 2 ^ 16
  | SMT_OemAssigned v => 2 ^ 31 <= v < 2 ^ 32
  | SMT_Reserved v => 0x28 <= v <= 0x2F \/ 0x31 <= v < 0x10000 \/ 0x20000 <= v < 2 ^ 31
  | _ => True
  end.
Proof.
  change (2 ^ 32) with 0x100000000. change (2 ^ 16) with 0x10000. change (2 ^ 31) with 0x80000000. split.
  - intros [k [L <-]]. unfold SystemManagementType_from, within, cast.
    change (2 ^ 8) with 256. change (2 ^ 16) with 0x10000.
    repeat match goal with |- context [if ?b then _ else _] => destruct b eqn:?; [try exact I|] end; try lia.
    apply N.lt_le_trans with 8; [|lia]. change 7 with (N.ones 3). rewrite N.land_ones. change (2 ^ 3) with 8. lia.
  - destruct x; intros H.
    all: try (first [exists 0x00; split; reflexivity|exists 0x01; split; reflexivity|exists 0x02; split; reflexivity|exists 0x03; split; reflexivity
      |exists 0x04; split; reflexivity|exists 0x05; split; reflexivity|exists 0x06; split; reflexivity|exists 0x10; split; reflexivity
      |exists 0x11; split; reflexivity|exists 0x12; split; reflexivity|exists 0x13; split; reflexivity|exists 0x14; split; reflexivity
      |exists 0x30; split; reflexivity]; fail).
    + exists v. split; [lia|]. assert (C : v = 7 \/ v = 8 \/ v = 9 \/ v = 10 \/ v = 11 \/ v = 12 \/ v = 13 \/ v = 14 \/ v = 15) by lia.
      decompose [or] C; subst v; reflexivity.
    + exists v. split; [lia|]. assert (C : v = 21 \/ v = 22 \/ v = 23 \/ v = 24 \/ v = 25 \/ v = 26 \/ v = 27 \/ v = 28 \/ v = 29 \/ v = 30 \/ v = 31) by lia.
      decompose [or] C; subst v; reflexivity.
    + exists (32 + v). split; [lia|]. assert (C : v = 0 \/ v = 1 \/ v = 2 \/ v = 3 \/ v = 4 \/ v = 5 \/ v = 6 \/ v = 7) by lia.
      decompose [or] C; subst v; reflexivity.
    + exists v. split; [lia|]. unfold SystemManagementType_from, within, cast.
      repeat match goal with |- context [if ?b then _ else _] => destruct b eqn:?; [exfalso; lia|] end. reflexivity.
    + exists (0x10000 + v). split; [lia|]. unfold SystemManagementType_from, within, cast. change (2 ^ 16) with 0x10000.
      repeat match goal with |- context [if ?b then _ else _] => destruct b eqn:?; [try (exfalso; lia)|] end; try (exfalso; lia). f_equal. lia.
    + exists v. split; [lia|]. unfold SystemManagementType_from, within, cast.
      repeat match goal with |- context [if ?b then _ else _] => destruct b eqn:?; [try (exfalso; lia)|] end; try (exfalso; lia). reflexivity.
Qed.
Lemma format_values x : comes_out VariableDataFormatType_from 256 x <->
  match x with
  | VDF_None => True
  | VDF_Handle h => h = 0
  | VDF_MultipleEvent n => n = 0
  | VDF_MultipleEventHandle h n => h = 0 /\ n = 0
  | VDF_PostResults v => v = 0
  | VDF_SystemManagementType t => t = SMT_Reserved 0xFFFF
  | VDF_MultipleEventSystemManagementType t n => t = SMT_Reserved 0xFFFF /\ n = 0
  | VDF_Unused v => 0x07 <= v <= 0x7F
  | VDF_OemAssigned v => 0x80 <= v < 256
  end.
Proof.
  split.
  - intros [k [L <-]]. unfold VariableDataFormatType_from, within.
    repeat match goal with |- context [if ?b then _ else _] => destruct b eqn:?; [try (exact I || reflexivity || (split; reflexivity)); try lia|] end. lia.
  - destruct x; intros H; try match type of H with _ /\ _ => destruct H end; subst.
    all: try (first [exists 0; split; reflexivity|exists 1; split; reflexivity|exists 2; split; reflexivity|exists 3; split; reflexivity
      |exists 4; split; reflexivity|exists 5; split; reflexivity|exists 6; split; reflexivity]; fail).
    all: exists v; split; [lia|]; unfold VariableDataFormatType_from, within;
      repeat match goal with |- context [if ?b then _ else _] => destruct b eqn:?; [try (exfalso; lia)|] end; try (exfalso; lia); reflexivity.
Qed.
