(* Proofs for C74. *)
From Coq Require Import String.
From Coq Require Import ZArith Lia ZifyBool ZifyNat ZifyN.
From Verif Require Import Base M_Bitfield G_Layouts Spec S_Bitfield S_BitNames L_Base L_Bitfield.
Local Open Scope N_scope.
Ltac Zify.zify_post_hook ::= Z.div_mod_to_equations.

(* the table of names says the same as the layout, entry by entry *)
Fixpoint follows (names : list bits) (k : N) (l : Layout) : Prop :=
  match l with [] => True | t :: l => called names k = Some t /\ follows names (k + 1) l end.
Lemma follows_nth names l : forall k q t, follows names k l -> nth_error l q = Some t -> called names (k + N.of_nat q) = Some t.
Proof.
  induction l as [|x l IH]; intros k q t H E; [destruct q; discriminate E|]. destruct H as [H1 H2]. destruct q as [|q].
  - injection E as <-. rewrite N.add_0_r. exact H1.
  - cbn [nth_error] in E. specialize (IH (k + 1) q t H2 E). rewrite <- IH. f_equal. lia.
Qed.
Lemma flags_length v l : forall p, len (flags v p l) = len l.
Proof. induction l as [|t l IH]; intros p; [reflexivity|]. cbn [flags]. rewrite !len_cons, IH. reflexivity. Qed.
Lemma names_iter c size v l names : size <= 16 -> size * 8 = len l -> follows names 0 l -> named_by c size v l names.
Proof.
  intros H1 H2 H3. destruct (iter_all c size v l H1) as [it [D N]]; [lia|].
  exists (flags v 0 (take (size * 8) l)), it. split; [exact D|]. split; [exact N|].
  rewrite H2, take_all in * by lia. split; [rewrite flags_length; symmetry; exact H2|].
  intros k f E. apply flags_nth in E. rewrite N.add_0_l in E. destruct E as (P & S & E). split; [exact P|]. split; [exact S|].
  apply (follows_nth names l 0 k _ H3 E).
Qed.
Lemma all_follow : Forall (fun x => fst (fst x) <= 16 /\ fst (fst x) * 8 = len (snd (fst x)) /\ follows (snd x) 0 (snd (fst x))) named_layouts.
Proof.
  repeat apply Forall_cons; try apply Forall_nil; cbn [fst snd]; (split; [vm_compute; discriminate|]; split; [vm_compute; reflexivity|]); vm_compute; repeat split.
Qed.
Lemma named_iter c size v l names : In (size, l, names) named_layouts -> named_by c size v l names.
Proof.
  intros H. pose proof (proj1 (Forall_forall _ _) all_follow _ H) as (A & B & C). apply names_iter; assumption.
Qed.
From Verif Require Import S_Decode.
Lemma when_more {A} (P : Prop) (Q R : A -> Prop) o : when P Q o -> (forall x, Q x -> R x) -> when P R o.
Proof. intros [[H [x [E K]]]|H] F; [left|right; exact H]. split; [exact H|]. exists x. auto. Qed.
Lemma one_name size l names k : In (size, l, names) named_layouts -> (k < size * 8 <-> exists t, called names k = Some t).
Proof.
  intros H. pose proof (proj1 (Forall_forall _ _) all_follow _ H) as (A & B & C). cbn [fst snd] in *. split.
  - intros K. destruct (nth_error l (N.to_nat k)) as [t|] eqn:E.
    + exists t. pose proof (follows_nth _ _ 0 _ _ C E) as F. rewrite N.add_0_l, Nnat.N2Nat.id in F. exact F.
    + exfalso. apply nth_error_None in E. unfold len in B. lia.
  - intros [t E]. assert (G : forallb (fun x => match x with Bit j _ _ => j <? size * 8 | Bits _ b _ => b <? size * 8 end) names = true).
    { clear - H. cbn [named_layouts In] in H. repeat match type of H with _ \/ _ => destruct H as [H|H]; [injection H as <- <- <-; reflexivity|] end. contradiction. }
    clear - G E. induction names as [|x names IH]; [discriminate E|]. cbn [forallb] in G. apply andb_true_iff in G. destruct G as [G1 G2].
    destruct x; cbn [called] in E.
    + destruct (N.eqb_spec k k0); [subst; lia|auto].
    + destruct ((from <=? k) && (k <=? to)) eqn:F; [lia|auto].
Qed.
