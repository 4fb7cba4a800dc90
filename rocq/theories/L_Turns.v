(* Lemmas for C100. *)
From Coq Require Import ZArith Lia ZifyBool ZifyNat ZifyN.
From Verif Require Import Base G_Enums M_Raw M_Iter Spec S_Iter S_Turns L_Base L_Iter L_Frame.

Section pool.
Context {S A : Type} (next : S -> out (option A * S)).

Lemma answers_next s f : answers next s f -> exists s', next s = Val (f O, s') /\ answers next s' (fun n => f (Datatypes.S n)).
Proof.
  intros H. pose proof (H 1%nat) as H1. inversion H1 as [|? ? s' ? E _]; subst. exists s'. split; [exact E|].
  intros n. pose proof (H (Datatypes.S n)) as Hn. inversion Hn as [|? ? s2 ? E2 C]; subst. rewrite E in E2. injection E2 as <-. exact C.
Qed.
Lemma answers_unique s f g : answers next s f -> answers next s g -> forall n, f n = g n.
Proof.
  intros F G n. revert s f g F G. induction n as [|n IH]; intros s f g F G;
    destruct (answers_next _ _ F) as (s1 & E1 & F1), (answers_next _ _ G) as (s2 & E2 & G1); rewrite E1 in E2.
  - congruence.
  - injection E2 as _ <-. exact (IH s1 _ _ F1 G1).
Qed.
Lemma answers_ext s f g : answers next s f -> (forall n, f n = g n) -> answers next s g.
Proof.
  intros H E n. specialize (H n). clear -H E. revert g E. induction H as [|n s s' f N C IH]; intros g E; [constructor|].
  econstructor; [rewrite <- E; exact N|]. apply IH. intros m. apply E.
Qed.

Lemma related_nth pool fs i : Forall2 (answers next) pool fs ->
  match nth_error pool i, nth_error fs i with
  | Some s, Some f => answers next s f
  | None, None => True
  | _, _ => False
  end.
Proof. intros H. revert i. induction H as [|s f pool fs R H IH]; intros [|i]; cbn [nth_error]; [exact I|exact I|exact R|apply IH]. Qed.
Lemma related_put pool fs i s f : Forall2 (answers next) pool fs -> answers next s f -> Forall2 (answers next) (put i s pool) (put i f fs).
Proof. intros H R. revert i. induction H as [|s0 f0 pool fs R0 H IH]; intros [|i]; cbn; constructor; auto. Qed.
Lemma in_turn {B} (p : user A B) pool fs : Forall2 (answers next) pool fs -> run_user next p pool = Val (expected p fs).
Proof.
  revert pool fs. induction p as [b|i k IH|i p IH]; intros pool fs H; cbn [run_user expected].
  - reflexivity.
  - pose proof (related_nth pool fs i H) as R. destruct (nth_error pool i) as [s|], (nth_error fs i) as [f|]; try destruct R.
    + destruct (answers_next _ _ R) as (s' & E & R'). rewrite E. cbn [obind]. apply IH. apply related_put; assumption.
    + apply IH. exact H.
  - pose proof (related_nth pool fs i H) as R. destruct (nth_error pool i) as [s|], (nth_error fs i) as [f|]; try destruct R.
    + apply IH. apply Forall2_app; [exact H|]. constructor; [exact R|constructor].
    + apply IH. exact H.
Qed.

Lemma answers_nones s : none_forever next s -> answers next s (fun _ => None).
Proof.
  intros H n. specialize (H n). revert s H. induction n as [|n IH]; intros s H; [constructor|].
  destruct H as (s' & E & H). econstructor; [exact E|]. apply IH, H.
Qed.
Lemma answers_cons s a s' f : next s = Val (a, s') -> answers next s' f -> answers next s (fun n => match n with O => a | Datatypes.S n => f n end).
Proof. intros E H [|n]; [constructor|]. econstructor; [exact E|]. apply H. Qed.
Lemma answers_list s l s' : (forall s1 s2, next s1 = Val (None, s2) -> none_forever next s2) -> drains next s l s' -> answers next s (nth_error l).
Proof.
  intros N D. induction D as [s s' E|s a s1 l s' E D IH].
  - eapply answers_ext; [exact (answers_cons _ _ _ _ E (answers_nones _ (N _ _ E)))|]. intros [|n]; reflexivity.
  - eapply answers_ext; [exact (answers_cons _ _ _ _ E IH)|]. intros [|n]; reflexivity.
Qed.

(* an iterator that never fails *)
Lemma answers_total (f : S -> option A * S) s : (forall s, next s = Val (f s)) -> exists g, answers next s g.
Proof.
  intros T. exists (fun n => fst (f (Nat.iter n (fun s => snd (f s)) s))). intros n. revert s.
  induction n as [|n IH]; intros s; [constructor|].
  apply calls_more with (s' := snd (f s)); [rewrite T; unfold Nat.iter; cbn [nat_rect]; destruct (f s); reflexivity|].
  assert (K : forall m, Nat.iter m (fun s => snd (f s)) (snd (f s)) = Nat.iter (Datatypes.S m) (fun s => snd (f s)) s).
  { induction m as [|m IHm]; [reflexivity|]. cbn [Nat.iter nat_rect] in *. unfold Nat.iter in *. cbn [nat_rect] in *. rewrite IHm. reflexivity. }
  specialize (IH (snd (f s))). clear -IH K. revert IH.
  assert (X : forall g h m s, (forall n, g n = h n) -> calls next m s g -> calls next m s h).
  { clear. intros g h m s E H. revert h E. induction H as [|n s s' f N C IH]; intros h E; [constructor|].
    econstructor; [rewrite <- E; exact N|]. apply IH. intros k. apply E. }
  apply X. intros m. rewrite K. reflexivity.
Qed.
End pool.

Local Open Scope N_scope.
Lemma answers_structures c s l s' : sane s -> drains (next c) s l s' -> answers (next c) s (nth_error l).
Proof.
  intros S D. induction D as [s s' E|s a s1 l s' E D IH].
  - eapply answers_ext; [exact (answers_cons _ _ _ _ _ E (answers_nones _ _ (none_final c s s' S E)))|]. intros [|n]; reflexivity.
  - eapply answers_ext; [exact (answers_cons _ _ _ _ _ E (IH (proj1 (next_sane _ _ _ _ S E))))|]. intros [|n]; reflexivity.
Qed.

Lemma in_put {T} i (x y : T) l : In y (put i x l) -> In y l \/ (y = x /\ (i < length l)%nat).
Proof.
  revert i. induction l as [|z l IH]; intros [|i]; cbn; try tauto.
  - intros [->|H]; [right; split; [reflexivity|lia]|auto].
  - intros [->|H]; [auto|]. apply IH in H as [H|[-> H]]; [auto|right; split; [reflexivity|lia]].
Qed.
(* what stops a program stops the plain loop over one of the tables it began with *)
Lemma fails_alone {B} c (p : user (res Structure) B) pool :
  (forall s, In s pool -> sane s) ->
  (run_user (next c) p pool = Panic -> exists s l, In s pool /\ runs (next c) s l Panicked) /\
  (run_user (next c) p pool = UB -> exists s l, In s pool /\ runs (next c) s l Undefined).
Proof.
  revert pool. induction p as [b|i k IH|i p IH]; intros pool S; cbn [run_user].
  - split; discriminate.
  - destruct (nth_error pool i) as [s|] eqn:E; [|apply IH, S]. apply nth_error_In in E.
    destruct (next c s) as [[a s']| |] eqn:N; cbn [obind].
    + assert (S' : forall t, In t (put i s' pool) -> sane t).
      { intros t T. apply in_put in T as [T|[-> _]]; [auto|]. exact (proj1 (next_sane _ _ _ _ (S _ E) N)). }
      destruct (IH a (put i s' pool) S') as [IP IU].
      assert (K : forall t l e, In t (put i s' pool) -> runs (next c) t l e -> e = Panicked \/ e = Undefined -> exists s l, In s pool /\ runs (next c) s l e).
      { intros t l e T R X. apply in_put in T as [T|[-> _]]; [eauto|]. destruct a as [a|].
        - exists s, (a :: l). split; [exact E|]. econstructor; eassumption.
        - exfalso. pose proof (none_final c s s' (S _ E) N 1%nat) as (s2 & N2 & _). inversion R; subst; try congruence; destruct X; discriminate. }
      split; intros H; [destruct (IP H) as (t & l & T & R)|destruct (IU H) as (t & l & T & R)]; exact (K _ _ _ T R ltac:(auto)).
    + split; [intros _|discriminate]. exists s, []. split; [exact E|]. constructor. exact N.
    + split; [discriminate|intros _]. exists s, []. split; [exact E|]. constructor. exact N.
  - destruct (nth_error pool i) as [s|] eqn:E; [|apply IH, S]. apply nth_error_In in E.
    destruct (IH (pool ++ [s])) as [IP IU].
    { intros t T. apply in_app_iff in T as [T|[<-|[]]]; auto. }
    split; intros H; [destruct (IP H) as (t & l & T & R)|destruct (IU H) as (t & l & T & R)];
      exists t, l; (split; [apply in_app_iff in T as [T|[<-|[]]]; auto|exact R]).
Qed.
