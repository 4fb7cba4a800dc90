(* Proofs for C94. *)
From Coq Require Import String.
From Coq Require Import ZArith Lia ZifyBool ZifyNat ZifyN.
From Verif Require Import Base M_Bitfield G_Layouts Spec S_Bitfield S_BitNames S_BitPrint L_Base L_Bitfield L_BitNames.
Local Open Scope N_scope.

(* the layout that a table of names stands for, from bit p on *)
Fixpoint spelled_out (p : N) (names : list bits) (l : Layout) : Prop :=
  match names with
  | [] => l = []
  | Bit k s d :: names => k = p /\ exists l', l = Significant s d :: l' /\ spelled_out (p + 1) names l'
  | Bits a b note :: names => a = p /\ exists l', l = repeat (FReserved note) (N.to_nat (b + 1 - a)) ++ l' /\ spelled_out (b + 1) names l' /\ a <= b
  end.
Lemma filter_reserved v note n : forall p l, filter keep (flags v p (repeat (FReserved note) n ++ l)) = filter keep (flags v (p + N.of_nat n) l).
Proof.
  induction n as [|n IH]; intros p l; [rewrite N.add_0_r; reflexivity|]. cbn [repeat app flags filter]. unfold keep at 1. cbn [type_ is_reserved negb andb is_set].
  rewrite ?Bool.andb_false_r, ?Bool.andb_false_l. cbn [orb negb]. rewrite IH. f_equal. f_equal. lia.
Qed.
Lemma printed_spelled long v names : forall p l, spelled_out p names l ->
  map (Flag_display long) (filter keep (flags v p l)) = texts_of long names v.
Proof.
  induction names as [|[k s d|a b note] names IH]; intros p l H; cbn [spelled_out] in H.
  - subst. reflexivity.
  - destruct H as (-> & l' & -> & H). cbn [flags filter texts_of]. unfold keep at 1. cbn [type_ is_set is_reserved].
    destruct (N.testbit v p); cbn; rewrite (IH _ _ H); reflexivity.
  - destruct H as (-> & l' & -> & H & K). rewrite filter_reserved. cbn [texts_of].
    replace (p + N.of_nat (N.to_nat (b + 1 - p))) with (b + 1) by lia. apply IH. exact H.
Qed.
Lemma all_spelled : Forall (fun x => fst (fst x) <= 16 /\ fst (fst x) * 8 = len (snd (fst x)) /\ spelled_out 0 (snd x) (snd (fst x))) named_layouts.
Proof.
  repeat apply Forall_cons; try apply Forall_nil; cbn [fst snd]; (split; [vm_compute; discriminate|]; split; [vm_compute; reflexivity|]);
    vm_compute; repeat first [reflexivity | discriminate | eexists | split].
Qed.
Lemma printed_all c size v l names long : In (size, l, names) named_layouts -> exists fs it,
  drains (significants_next c) (iter_new size v l) fs it /\ none_forever (significants_next c) it /\
  map (Flag_display long) fs = texts_of long names v.
Proof.
  intros H. pose proof (proj1 (Forall_forall _ _) all_spelled _ H) as (A & B & C). cbn [fst snd] in *.
  destruct (sig_all c size v l A) as [it [D N]]; [lia|].
  exists (filter keep (flags v 0 (take (size * 8) l))), it. split; [exact D|]. split; [exact N|].
  rewrite B, take_all by lia. apply printed_spelled. exact C.
Qed.

(* a text is printed exactly if a set bit has it *)
Lemma texts_in long names v t : In t (texts_of long names v) <-> exists k, N.testbit v k = true /\ text_of long names k t.
Proof.
  unfold text_of. induction names as [|[k s d|a b note] names IH]; cbn [texts_of].
  - split; [intros []|intros (k & _ & s & d & [] & _)].
  - assert (R : (exists k0, N.testbit v k0 = true /\ exists short full, In (Bit k0 short full) (Bit k s d :: names) /\ t = (if long then full else short)) <->
       (N.testbit v k = true /\ t = if long then d else s) \/ (exists k0, N.testbit v k0 = true /\ exists short full, In (Bit k0 short full) names /\ t = (if long then full else short))).
    { split.
      - intros (j & J & s' & d' & [E|E] & T); [injection E as -> -> ->; left; tauto|right; eauto 8].
      - intros [[J T]|(j & J & s' & d' & E & T)]; [exists k; split; [exact J|]; exists s, d; split; [left; reflexivity|exact T]|].
        exists j. split; [exact J|]. exists s', d'. split; [right; exact E|exact T]. }
    rewrite R, <- IH. destruct (N.testbit v k) eqn:E; cbn [In].
    + split; [intros [<-|]; tauto|intros [[_ ->]|]; tauto].
    + split; [tauto|]. intros [[X _]|]; [discriminate X|tauto].
  - rewrite IH. split; intros (j & J & s & d & E & T); exists j; (split; [exact J|]); exists s, d; (split; [|exact T]).
    + right. exact E.
    + destruct E as [E|E]; [discriminate E|exact E].
Qed.

(* names are told apart by their texts *)
Definition name_text (long : bool) (b : bits) : list (N * string) :=
  match b with Bit k s d => [(k, if long then d else s)] | Bits _ _ _ => [] end.
Definition name_texts long names := concat (map (name_text long) names).
Lemma name_texts_in long names k t : text_of long names k t <-> In (k, t) (name_texts long names).
Proof.
  unfold text_of, name_texts. rewrite in_concat. split.
  - intros (s & d & H & ->). exists [(k, if long then d else s)]. split; [|left; reflexivity].
    apply in_map_iff. exists (Bit k s d). split; [reflexivity|exact H].
  - intros (x & H & K). apply in_map_iff in H. destruct H as ([j s d|] & <- & H); [|destruct K].
    destruct K as [K|[]]. injection K as -> <-. exists s, d. auto.
Qed.
Definition apart (long : bool) (names : list bits) : bool :=
  forallb (fun x => (snd x =? "Reserved")%string ||
    forallb (fun y => (fst x =? fst y) || negb (snd x =? snd y)%string) (name_texts long names)) (name_texts long names).
Lemma all_apart : forallb (fun x => apart false (snd x) && apart true (snd x)) named_layouts = true.
Proof. vm_compute. reflexivity. Qed.
Lemma apart_in size l names long k j t : In (size, l, names) named_layouts ->
  text_of long names k t -> text_of long names j t -> t <> "Reserved"%string -> k = j.
Proof.
  intros H K J T. pose proof all_apart as A. rewrite forallb_forall in A. specialize (A _ H). cbn [snd] in A.
  apply andb_true_iff in A. assert (B : apart long names = true) by (destruct long; tauto). clear A.
  apply name_texts_in in K, J. unfold apart in B. rewrite forallb_forall in B. specialize (B _ K). cbn [fst snd] in B.
  apply orb_true_iff in B. destruct B as [B|B]; [apply String.eqb_eq in B; contradiction|].
  rewrite forallb_forall in B. specialize (B _ J). cbn [fst snd] in B. rewrite String.eqb_refl in B. lia.
Qed.
Lemma reads_back size l names long v w : In (size, l, names) named_layouts ->
  (forall t, In t (texts_of long names v) <-> In t (texts_of long names w)) ->
  forall k t, text_of long names k t -> t <> "Reserved"%string -> N.testbit v k = N.testbit w k.
Proof.
  intros H E. assert (ONE : forall v w, (forall t, In t (texts_of long names v) -> In t (texts_of long names w)) ->
    forall k t, text_of long names k t -> t <> "Reserved"%string -> N.testbit v k = true -> N.testbit w k = true).
  { clear - H. intros v w E k t K T V. assert (I : In t (texts_of long names w)) by (apply E; apply texts_in; eauto).
    apply texts_in in I. destruct I as (j & J & L). rewrite (apart_in size l names long k j t); assumption. }
  intros k t K T. destruct (N.testbit v k) eqn:A, (N.testbit w k) eqn:B; try reflexivity.
  - rewrite (ONE v w (fun t => proj1 (E t)) k t K T A) in B. discriminate B.
  - rewrite (ONE w v (fun t => proj2 (E t)) k t K T B) in A. discriminate A.
Qed.
