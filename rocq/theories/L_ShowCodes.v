(* Lemmas for C87: codes are shown by the names of the tables. *)
From Coq Require Import String.
From Coq Require Import ZArith Lia ZifyBool ZifyNat ZifyN.
From Verif Require Import Base G_Enums M_Display M_Show G_Show S_Text S_ShowFields S_ShowCodes L_Base L_Text L_ShowFields.
Local Open Scope string_scope.
Local Open Scope N_scope.
Ltac Zify.zify_post_hook ::= Z.div_mod_to_equations.

(* what the table says *)
Definition row_tree (rows : list row) (other : string) (k : N) : tree :=
  match row_of rows k with
  | Some r => show_variant (called r) (if numbered r then Some k else None)
  | None => show_variant other (Some k)
  end.
Lemma row_tree_text u wide d rows other k : k < 65536 -> code_text wide d rows other k (print u wide d (row_tree rows other k)).
Proof.
  intros H. assert (N : numeral 10 (show_dec k) k) by (apply show_dec_numeral; eapply N.lt_trans; [exact H|reflexivity]).
  unfold code_text, row_tree. destruct (row_of rows k) as [r|]; [destruct (numbered r)|]; unfold show_variant.
  - exists (show_dec k). split; [exact N|]. cbn [print map]. apply block_enclosed.
  - reflexivity.
  - exists (show_dec k). split; [exact N|]. cbn [print map]. apply block_enclosed.
Qed.
(* equality of trees of that kind *)
Definition same_tree (a b : tree) : bool :=
  match a, b with
  | Words [x], Words [y] => String.eqb x y
  | Call x [Words [a]], Call y [Words [b]] => String.eqb x y && String.eqb a b
  | _, _ => false
  end.
Lemma same_tree_eq a b : same_tree a b = true -> a = b.
Proof.
  destruct a as [[|x []]| |x [|[[|a []]| | | |] []]| |], b as [[|y []]| |y [|[[|b []]| | | |] []]| |]; try discriminate; cbn [same_tree]; intros H.
  - apply String.eqb_eq in H. subst. reflexivity.
  - apply andb_true_iff in H. destruct H as [H1 H2]. apply String.eqb_eq in H1, H2. subst. reflexivity.
Qed.
Definition row_checked (f : N -> out tree) (rows : list row) (other : string) (k : N) : bool :=
  match f k with Val t => same_tree t (row_tree rows other k) | _ => false end.
Definition checked_below (n : nat) (f : N -> out tree) (rows : list row) (other : string) : bool :=
  forallb (fun k => row_checked f rows other (N.of_nat k)) (seq 0 n).
Lemma checked_text n f rows other k : checked_below n f rows other = true -> k < N.of_nat n -> f k = Val (row_tree rows other k).
Proof.
  intros H HK. unfold checked_below in H. rewrite forallb_forall in H. specialize (H (N.to_nat k)). rewrite N2Nat.id in H.
  assert (E : row_checked f rows other k = true) by (apply H, in_seq; lia). unfold row_checked in E.
  destruct (f k) as [t| |]; [|discriminate..]. apply same_tree_eq in E. subst. reflexivity.
Qed.

(* the family has two bytes *)
Lemma row_of_skip k l m : Forall (fun r => last_code r < k) l -> row_of (l ++ m)%list k = row_of m k.
Proof.
  intros H. unfold row_of. induction H as [|r l H _ IH]; [reflexivity|]. cbn [app find].
  replace (k <=? last_code r) with false by lia. rewrite andb_false_r. exact IH.
Qed.
Lemma family_texts k : k < 65536 -> ProcessorFamily_tree (ProcessorFamily_from k) = row_tree ProcessorFamily_texts "" k.
Proof.
  intros H. assert (B : checked_below 515 (fun k => Val (ProcessorFamily_tree (ProcessorFamily_from k))) ProcessorFamily_texts "" = true)
    by (vm_compute; reflexivity).
  destruct (N.lt_ge_cases k 515) as [L|G]; [pose proof (checked_text _ _ _ _ k B L) as E; injection E as E; exact E|clear B].
  destruct (N.eq_dec k 65534) as [->|]; [reflexivity|]. destruct (N.eq_dec k 65535) as [->|]; [reflexivity|].
  assert (R : row_of ProcessorFamily_texts k = Some (row_with 0x203 0xFFFD "Available")).
  { change ProcessorFamily_texts with (firstn 238 ProcessorFamily_texts ++ skipn 238 ProcessorFamily_texts)%list.
    rewrite row_of_skip by (apply Forall_forall; intros r I; assert (C : forallb (fun r => last_code r <? 515) (firstn 238 ProcessorFamily_texts) = true) by reflexivity;
      rewrite forallb_forall in C; specialize (C r I); lia).
    cbn [skipn ProcessorFamily_texts]. unfold row_of. cbn [find row_for row_with first_code last_code].
    replace ((515 <=? k) && (k <=? 65533))%bool with true by lia. reflexivity. }
  unfold row_tree. rewrite R. unfold ProcessorFamily_from.
  repeat (match goal with |- context [if ?b then _ else _] =>
    first [replace b with false by lia; cbv iota|replace b with true by lia; cbv iota; reflexivity] end).
Qed.
Lemma coded_texts u wide d limit f rows other k : In (limit, f, rows, other) coded_types -> k < limit ->
  exists t, f k = Val t /\ code_text wide d rows other k (print u wide d t).
Proof.
  intros I H. assert (L : limit <= 65536).
  { assert (C : forallb (fun x => fst (fst (fst x)) <=? 65536) coded_types = true) by reflexivity.
    rewrite forallb_forall in C. specialize (C _ I). cbn [fst] in C. lia. }
  assert (E : f k = Val (row_tree rows other k)); [|exists (row_tree rows other k); split; [exact E|apply row_tree_text; lia]].
  clear L. unfold coded_types in I. cbn [In] in I.
  repeat (destruct I as [E|I]; [lazymatch type of E with (_, ?g, ?r, ?o) = _ => injection E as <- <- <- <-; lazymatch type of H with
    | k < 256 => apply (checked_text 256 g r o k); [vm_compute; reflexivity|exact H]
    | k < 65536 => exact (f_equal (@Val tree) (family_texts k H))
    | k < 8 => apply (checked_text 8 g r o k); [vm_compute; reflexivity|exact H]
    | k < 4 => apply (checked_text 4 g r o k); [vm_compute; reflexivity|exact H]
    end end|]).
  destruct I.
Qed.
