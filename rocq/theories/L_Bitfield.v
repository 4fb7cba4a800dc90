(* Proofs for C45-C48 *)
From Coq Require Import String.
From Coq Require Import ZArith Lia ZifyBool ZifyNat ZifyN.
From Verif Require Import Base G_Enums M_Raw M_Bitfield G_Layouts Spec S_Bitfield L_Base.
Local Open Scope N_scope.
Ltac Zify.zify_post_hook ::= Z.div_mod_to_equations.

Lemma land_bit v p : negb (N.land v (2 ^ p) =? 0) = N.testbit v p.
Proof.
  destruct (N.testbit v p) eqn:T.
  - destruct (N.eqb_spec (N.land v (2 ^ p)) 0) as [E|E]; [|reflexivity]. exfalso.
    assert (B : N.testbit (N.land v (2 ^ p)) p = false) by (rewrite E; apply N.bits_0).
    rewrite N.land_spec, T, N.pow2_bits_true in B. discriminate B.
  - destruct (N.eqb_spec (N.land v (2 ^ p)) 0) as [E|E]; [reflexivity|]. exfalso. apply E.
    apply N.bits_inj. intros q. rewrite N.land_spec, N.pow2_bits_eqb, N.bits_0.
    destruct (N.eqb_spec p q) as [<-|]; [rewrite T|rewrite andb_false_r]; reflexivity.
Qed.

Definition at_pos (size v p : N) (l : Layout) : Iter :=
  {| it_size := size; it_value := v; it_index := p; it_layout := l |}.

Lemma iter_step c size v p l t : p < size * 8 -> size <= 16 -> entry l p = Some t ->
  iter_next c (at_pos size v p l) =
  Val (Some {| position := p; is_set := N.testbit v p; type_ := t |}, at_pos size v (p + 1) l).
Proof.
  intros H1 H2 E. unfold iter_next. cbn [at_pos it_size it_index it_value it_layout].
  destruct (N.eqb_spec p (size * 8)); [lia|]. unfold shl1. destruct (N.ltb_spec p 128); [|lia].
  cbn [obind]. unfold index. unfold entry in E. rewrite E. cbn [obind]. rewrite land_bit. reflexivity.
Qed.
Lemma iter_end c size v l : iter_next c (at_pos size v (size * 8) l) = Val (None, at_pos size v (size * 8) l).
Proof. unfold iter_next. cbn [at_pos it_size it_index]. rewrite N.eqb_refl. reflexivity. Qed.

Lemma drop_entry (l : Layout) p t rest : drop p l = t :: rest -> entry l p = Some t /\ drop (p + 1) l = rest.
Proof.
  intros H. split.
  - unfold entry. rewrite <- (Nat.add_0_r (N.to_nat p)).
    assert (K := nth_error_app2 (firstn (N.to_nat p) l) (skipn (N.to_nat p) l)).
    assert (L : (N.to_nat p < length l)%nat).
    { assert (Q := f_equal (@length _) H). unfold drop in Q. rewrite skipn_length in Q. cbn in Q. lia. }
    rewrite firstn_skipn in K. rewrite K by (rewrite firstn_length; lia).
    rewrite firstn_length. replace (_ + 0 - _)%nat with 0%nat by lia. unfold drop in H. rewrite H. reflexivity.
  - replace (p + 1) with (1 + p) by lia. rewrite <- drop_drop, H. reflexivity.
Qed.

Lemma iter_drains c size v l rest : size <= 16 -> forall p, take (size * 8 - p) (drop p l) = rest -> p <= size * 8 -> size * 8 <= len l ->
  drains (iter_next c) (at_pos size v p l) (flags v p rest) (at_pos size v (size * 8) l).
Proof.
  intros HS. induction rest as [|t rest IH]; intros p E H1 H2.
  - assert (p = size * 8).
    { apply (f_equal len) in E. lens. lia. }
    subst. constructor. apply iter_end.
  - assert (p < size * 8). { apply (f_equal len) in E. lens. lia. }
    destruct (drop p l) as [|t' rest'] eqn:D; [unfold take in E; rewrite firstn_nil in E; discriminate E|].
    destruct (drop_entry _ _ _ _ D) as [E1 E2].
    replace (size * 8 - p) with (1 + (size * 8 - (p + 1))) in E by lia.
    unfold take in E. rewrite N2Nat.inj_add in E. cbn [N.to_nat Pos.to_nat Pos.iter_op Nat.add firstn] in E.
    injection E as <- E. cbn [flags]. econstructor; [apply iter_step; eassumption|].
    apply IH; [|lia|assumption]. rewrite E2. exact E.
Qed.

Lemma iter_all c size v l : size <= 16 -> size * 8 <= len l -> exists it,
  drains (iter_next c) (iter_new size v l) (flags v 0 (take (size * 8) l)) it /\ none_forever (iter_next c) it.
Proof.
  intros H1 H2. exists (at_pos size v (size * 8) l). split.
  - apply (iter_drains c size v l _ H1 0); [f_equal; lia|lia|exact H2].
  - intros n. induction n as [|n IH]; [exact I|]. cbn [nones]. eexists. split; [apply iter_end|exact IH].
Qed.

Lemma flags_nth v l : forall p q f, nth_error (flags v p l) q = Some f <->
  position f = p + N.of_nat q /\ is_set f = N.testbit v (p + N.of_nat q) /\ nth_error l q = Some (type_ f).
Proof.
  induction l as [|t l IH]; intros p q f.
  - destruct q; cbn; split; [discriminate|intros [_ [_ H]]; discriminate H|discriminate|intros [_ [_ H]]; discriminate H].
  - destruct q as [|q]; cbn [flags nth_error].
    + rewrite N.add_0_r. split.
      * intros E. injection E as <-. cbn. auto.
      * destruct f as [pp ss tt]. cbn [position is_set type_]. intros [-> [-> E]]. injection E as ->. reflexivity.
    + rewrite IH. replace (p + 1 + N.of_nat q) with (p + N.of_nat (S q)) by lia. reflexivity.
Qed.

Lemma iter_short c size v l : size <= 16 -> len l < size * 8 -> runs (iter_next c) (iter_new size v l) (flags v 0 l) Panicked.
Proof.
  intros HS HL. assert (G : forall rest p, drop p l = rest -> p <= len l -> runs (iter_next c) (at_pos size v p l) (flags v p rest) Panicked).
  { induction rest as [|t rest IH]; intros p D HP.
    - assert (p = len l) by (apply (f_equal len) in D; lens; lia). subst p. apply runs_panic.
      unfold iter_next. cbn [at_pos it_size it_index it_value it_layout]. destruct (N.eqb_spec (len l) (size * 8)); [lia|].
      unfold shl1. destruct (N.ltb_spec (len l) 128); [|lia]. cbn [obind]. unfold index.
      destruct (nth_error l (N.to_nat (len l))) eqn:E; [|reflexivity].
      exfalso. assert (N : nth_error l (N.to_nat (len l)) <> None) by congruence. apply nth_error_Some in N. unfold len in N. lia.
    - assert (p < len l) by (apply (f_equal len) in D; lens; lia).
      destruct (drop_entry _ _ _ _ D) as [E1 E2]. cbn [flags].
      eapply runs_some; [apply iter_step; [lia|assumption|exact E1]|]. apply IH; [exact E2|lia]. }
  apply (G l 0); [reflexivity|lia].
Qed.

(* ------------------------------------------------------------- collecting *)

Lemma from_positions_in c w ps : Forall (fun p => p < w) ps -> forall acc,
  exists v, from_positions c w acc ps = Val v /\
  forall q, N.testbit v q = true <-> N.testbit acc q = true \/ In q ps.
Proof.
  intros H. induction H as [|p ps H _ IH]; intros acc.
  - exists acc. split; [reflexivity|]. cbn. tauto.
  - cbn [from_positions]. unfold shl1. destruct (N.ltb_spec p w); [|lia]. cbn [obind].
    destruct (IH (N.lor acc (2 ^ p))) as [v [E V]]. exists v. split; [exact E|]. intros q. rewrite V.
    rewrite N.lor_spec, orb_true_iff, N.pow2_bits_eqb, N.eqb_eq. cbn [In]. intuition.
Qed.
Lemma from_positions_mod c w ps : overflow_checks c = false -> 0 < w -> forall acc,
  exists v, from_positions c w acc ps = Val v /\
  forall q, N.testbit v q = true <-> N.testbit acc q = true \/ exists p, In p ps /\ q = p mod w.
Proof.
  intros O HW. induction ps as [|p ps IH]; intros acc.
  - exists acc. split; [reflexivity|]. intros q. split; [tauto|]. intros [H|[p [[] _]]]. exact H.
  - cbn [from_positions].
    assert (E1 : shl1 c w p = Val (2 ^ (p mod w))).
    { unfold shl1. rewrite O. destruct (N.ltb_spec p w); [rewrite N.mod_small by assumption|]; reflexivity. }
    rewrite E1. cbn [obind].
    destruct (IH (N.lor acc (2 ^ (p mod w)))) as [v [E V]]. exists v. split; [exact E|]. intros q. rewrite V.
    rewrite N.lor_spec, orb_true_iff, N.pow2_bits_eqb, N.eqb_eq. cbn [In]. split.
    + intros [[H|H]|[p' [H1 H2]]]; eauto 6.
    + intros [H|[p' [[<-|H1] H2]]]; eauto 6.
Qed.
Lemma from_positions_panic c w ps : overflow_checks c = true -> forall acc,
  from_positions c w acc ps = Panic <-> exists p, In p ps /\ w <= p.
Proof.
  intros O. induction ps as [|p ps IH]; intros acc; cbn [from_positions].
  - split; [discriminate|intros [p [[] _]]].
  - unfold shl1. rewrite O. destruct (N.ltb_spec p w); cbn [obind].
    + rewrite IH. cbn [In]. split; [intros [q [A B]]; eauto|intros [q [[<-|A] B]]; [lia|eauto]].
    + split; [intros _; exists p; cbn; auto|reflexivity].
Qed.

Lemma testbit_high v w q : v < 2 ^ w -> w <= q -> N.testbit v q = false.
Proof.
  intros H Q. rewrite <- (N.mod_small v (2 ^ w)) by exact H. apply N.mod_pow2_bits_high, Q.
Qed.
Lemma bits_bound v w : (forall q, N.testbit v q = true -> q < w) -> v < 2 ^ w.
Proof.
  intros H. assert (E : v = v mod 2 ^ w).
  { apply N.bits_inj. intros q. destruct (N.ltb_spec q w) as [L|L].
    - rewrite N.mod_pow2_bits_low by exact L. reflexivity.
    - rewrite N.mod_pow2_bits_high by exact L. destruct (N.testbit v q) eqn:T; [|reflexivity]. apply H in T. lia. }
  rewrite E. apply N.mod_upper_bound. apply N.pow_nonzero. discriminate.
Qed.

Lemma collect_in c w ps : Forall (fun p => p < w) ps ->
  exists v, from_iter c w ps = Val v /\ v < 2 ^ w /\ forall q, N.testbit v q = true <-> In q ps.
Proof.
  intros H. destruct (from_positions_in c w ps H 0) as [v [E V]]. exists v. split; [exact E|].
  assert (V' : forall q, N.testbit v q = true <-> In q ps).
  { intros q. rewrite V, N.bits_0. intuition discriminate. }
  split; [|exact V']. apply bits_bound. intros q Q. apply V' in Q. rewrite Forall_forall in H. apply H, Q.
Qed.
Lemma collect_mod c w ps : overflow_checks c = false -> 0 < w ->
  exists v, from_iter c w ps = Val v /\ v < 2 ^ w /\ forall q, N.testbit v q = true <-> exists p, In p ps /\ q = p mod w.
Proof.
  intros O H. destruct (from_positions_mod c w ps O H 0) as [v [E V]]. exists v. split; [exact E|].
  assert (V' : forall q, N.testbit v q = true <-> exists p, In p ps /\ q = p mod w).
  { intros q. rewrite V, N.bits_0. intuition discriminate. }
  split; [|exact V']. apply bits_bound. intros q Q. apply V' in Q. destruct Q as [p [_ ->]]. apply N.mod_upper_bound. lia.
Qed.

Lemma set_positions_in v l : forall p q, In q (set_positions (flags v p l)) <-> p <= q < p + len l /\ N.testbit v q = true.
Proof.
  unfold set_positions. induction l as [|t l IH]; intros p q; lens.
  - cbn. split; [tauto|lia].
  - cbn [flags filter]. cbn [is_set]. destruct (N.testbit v p) eqn:T; cbn [map In position]; rewrite IH.
    + split; [intros [<-|H]; [split; [lia|exact T]|split; [lia|tauto]]|].
      intros [H1 H2]. destruct (N.eq_dec p q); [left; assumption|right; split; [lia|exact H2]].
    + split; [intros H; split; [lia|tauto]|].
      intros [H1 H2]. split; [|exact H2]. destruct (N.eq_dec p q); [subst; congruence|lia].
Qed.

Lemma collect_flags c w v l : v < 2 ^ w -> len l = w -> from_iter c w (set_positions (flags v 0 l)) = Val v.
Proof.
  intros HV HL. destruct (collect_in c w (set_positions (flags v 0 l))) as [v' [E [B V]]].
  - apply Forall_forall. intros q Q. apply set_positions_in in Q. lia.
  - rewrite E. f_equal. apply N.bits_inj. intros q. apply eq_true_iff_eq. rewrite V, set_positions_in. split.
    + tauto.
    + intros T. split; [|exact T]. destruct (N.leb_spec w q) as [Q|Q]; [|lia].
      rewrite (testbit_high v w q HV Q) in T. discriminate T.
Qed.

(* ------------------------------------------------------------ significants *)

Definition rest_at (size p : N) (l : Layout) : Layout := take (size * 8 - p) (drop p l).

Lemma rest_nil size p l : p <= size * 8 -> size * 8 <= len l -> rest_at size p l = [] -> p = size * 8.
Proof. unfold rest_at. intros H1 H2 E. apply (f_equal len) in E. lens. lia. Qed.
Lemma rest_cons size p l t rest : p <= size * 8 -> size * 8 <= len l -> rest_at size p l = t :: rest ->
  p < size * 8 /\ entry l p = Some t /\ rest_at size (p + 1) l = rest.
Proof.
  unfold rest_at. intros H1 H2 E.
  assert (p < size * 8) by (apply (f_equal len) in E; lens; lia). split; [assumption|].
  destruct (drop p l) as [|t' rest'] eqn:D; [unfold take in E; rewrite firstn_nil in E; discriminate E|].
  destruct (drop_entry _ _ _ _ D) as [E1 E2].
  replace (size * 8 - p) with (1 + (size * 8 - (p + 1))) in E by lia.
  unfold take in E. rewrite N2Nat.inj_add in E. cbn [N.to_nat Pos.to_nat Pos.iter_op Nat.add firstn] in E.
  injection E as <- E. split; [exact E1|]. rewrite E2. exact E.
Qed.
Lemma rest_length size p l : (length (rest_at size p l) < S (S (length l)))%nat.
Proof. unfold rest_at, take, drop. rewrite firstn_length, skipn_length. lia. Qed.

Definition keep (f : Flag) : bool := is_set f && negb (is_reserved (type_ f)).

Fixpoint sig_result (size v : N) (l : Layout) (p : N) (rest : Layout) : option Flag * Iter :=
  match rest with
  | [] => (None, at_pos size v (size * 8) l)
  | t :: rest' => let f := {| position := p; is_set := N.testbit v p; type_ := t |} in
    if keep f then (Some f, at_pos size v (p + 1) l) else sig_result size v l (p + 1) rest'
  end.

Lemma sig_loop c size v l : size <= 16 -> size * 8 <= len l -> forall rest p fuel,
  rest_at size p l = rest -> p <= size * 8 -> (length rest < fuel)%nat ->
  significants_loop fuel c (at_pos size v p l) = Val (sig_result size v l p rest).
Proof.
  intros H1 H2. induction rest as [|t rest IH]; intros p fuel R HP HF; (destruct fuel as [|fuel]; [lia|]); cbn [significants_loop].
  - apply rest_nil in R; [|assumption..]. subst p. rewrite iter_end. reflexivity.
  - apply rest_cons in R; [|assumption..]. destruct R as [A [B C]].
    rewrite (iter_step c size v p l t A H1 B). cbn [obind]. cbn [sig_result]. unfold keep. cbn [is_set type_].
    destruct (N.testbit v p), (is_reserved t); cbn [orb negb andb]; try reflexivity; apply IH; cbn [length] in HF; (assumption || lia).
Qed.
Lemma sig_next c size v l p : size <= 16 -> size * 8 <= len l -> p <= size * 8 ->
  significants_next c (at_pos size v p l) = Val (sig_result size v l p (rest_at size p l)).
Proof. intros H1 H2 H3. unfold significants_next. apply sig_loop; try assumption; [reflexivity|apply rest_length]. Qed.

Lemma drains_eq {S A} (next : S -> out (option A * S)) s t l s' : next s = next t -> drains next t l s' -> drains next s l s'.
Proof. intros E D. inversion D; subst; econstructor; try eassumption; congruence. Qed.

Lemma sig_drains c size v l : size <= 16 -> size * 8 <= len l -> forall rest p,
  rest_at size p l = rest -> p <= size * 8 ->
  drains (significants_next c) (at_pos size v p l) (filter keep (flags v p rest)) (at_pos size v (size * 8) l).
Proof.
  intros H1 H2. induction rest as [|t rest IH]; intros p R HP.
  - constructor. rewrite sig_next, R by assumption. reflexivity.
  - destruct (rest_cons _ _ _ _ _ HP H2 R) as [A [B C]]. specialize (IH (p + 1) C ltac:(lia)).
    cbn [flags filter]. destruct (keep _) eqn:K.
    + econstructor; [|exact IH]. rewrite sig_next, R by assumption. cbn [sig_result]. rewrite K. reflexivity.
    + eapply drains_eq; [|exact IH]. rewrite !sig_next by (assumption || lia). rewrite R, C. cbn [sig_result]. rewrite K. reflexivity.
Qed.
Lemma sig_all c size v l : size <= 16 -> size * 8 <= len l -> exists it,
  drains (significants_next c) (iter_new size v l) (filter keep (flags v 0 (take (size * 8) l))) it /\
  none_forever (significants_next c) it.
Proof.
  intros H1 H2. exists (at_pos size v (size * 8) l). split.
  - apply sig_drains; [assumption..| |lia]. unfold rest_at. rewrite N.sub_0_r. reflexivity.
  - intros n. induction n as [|n IH]; [exact I|]. cbn [nones]. eexists. split; [|exact IH].
    rewrite sig_next by (assumption || lia). destruct (rest_at size (size * 8) l) eqn:E; [reflexivity|].
    apply rest_cons in E; lia.
Qed.
Lemma keep_in v l f : In f (filter keep (flags v 0 l)) <->
  is_set f = true /\ N.testbit v (position f) = true /\ entry l (position f) = Some (type_ f) /\ is_reserved (type_ f) = false.
Proof.
  rewrite filter_In. unfold keep. rewrite andb_true_iff, negb_true_iff. split.
  - intros [H1 [H2 H3]]. apply In_nth_error in H1. destruct H1 as [q H1]. apply flags_nth in H1.
    destruct H1 as [E1 [E2 E3]]. unfold entry. rewrite E1 in *. rewrite N.add_0_l, Nat2N.id in *.
    rewrite <- E2. auto.
  - intros [H1 [H2 [H3 H4]]]. split; [|split; assumption].
    apply nth_error_In with (n := N.to_nat (position f)). apply flags_nth. rewrite N.add_0_l, N2Nat.id.
    split; [reflexivity|]. split; [congruence|exact H3].
Qed.
Lemma keep_ascending v l : forall p, ascending (map position (filter keep (flags v p l))) /\
  forall q, In q (map position (filter keep (flags v p l))) -> p <= q.
Proof.
  induction l as [|t l IH]; intros p; [cbn; tauto|]. cbn [flags filter]. destruct (IH (p + 1)) as [A B].
  destruct (keep _); cbn [map position].
  - split.
    + cbn [ascending]. destruct (map position (filter keep (flags v (p + 1) l))) as [|b r] eqn:E; [exact I|].
      split; [|exact A]. specialize (B b (or_introl eq_refl)). lia.
    + intros q [<-|Q]; [lia|]. specialize (B q Q). lia.
  - split; [exact A|]. intros q Q. specialize (B q Q). lia.
Qed.

(* ---------------------------------------------------------------- reserved *)

Definition Rv (size v p : N) (l : Layout) (desc : option string) (start : N) : Reserved :=
  {| rv_iter := at_pos size v p l; rv_desc := desc; rv_start := start |}.
Definition RR d a b : ReservedRange := {| description := d; range_start := a; range_end := b |}.

Fixpoint res_result (size v : N) (l : Layout) (rest : Layout) (p : N) (desc : option string) (start fin : N)
  : option ReservedRange * Reserved :=
  match rest with
  | [] => (match desc with Some d => Some (RR d start fin) | None => None end, Rv size v (size * 8) l None start)
  | t :: rest' =>
    match t, desc with
    | FReserved s, Some d =>
      if negb (s =? d)%string then (Some (RR d start fin), Rv size v (p + 1) l (Some s) p)
      else res_result size v l rest' (p + 1) (Some s) start p
    | FReserved s, None => res_result size v l rest' (p + 1) (Some s) p p
    | _, Some d => (Some (RR d start fin), Rv size v (p + 1) l None start)
    | _, None => res_result size v l rest' (p + 1) None start p
    end
  end.
Fixpoint res_list (rest : Layout) (p : N) (desc : option string) (start fin : N) : list ReservedRange :=
  match rest with
  | [] => match desc with Some d => [RR d start fin] | None => [] end
  | t :: rest' =>
    match t, desc with
    | FReserved s, Some d =>
      if negb (s =? d)%string then RR d start fin :: res_list rest' (p + 1) (Some s) p 0
      else res_list rest' (p + 1) (Some s) start p
    | FReserved s, None => res_list rest' (p + 1) (Some s) p p
    | _, Some d => RR d start fin :: res_list rest' (p + 1) None start 0
    | _, None => res_list rest' (p + 1) None start p
    end
  end.

Lemma res_loop c size v l : size <= 16 -> size * 8 <= len l -> forall rest p desc start fin fuel,
  rest_at size p l = rest -> p <= size * 8 -> (length rest < fuel)%nat ->
  reserved_loop fuel c (Rv size v p l desc start) fin = Val (res_result size v l rest p desc start fin).
Proof.
  intros H1 H2. induction rest as [|t rest IH]; intros p desc start fin fuel R HP HF;
  (destruct fuel as [|fuel]; [lia|]); cbn [reserved_loop]; cbn [Rv rv_iter rv_desc rv_start].
  - apply rest_nil in R; [|assumption..]. subst p. rewrite iter_end. reflexivity.
  - apply rest_cons in R; [|assumption..]. destruct R as [A [B C]].
    rewrite (iter_step c size v p l t A H1 B). cbn [obind position type_ res_result].
    cbn [length] in HF.
    destruct t as [|m ds|s], desc as [d|]; cbn [position]; try reflexivity;
    try (apply IH; [exact C|lia|lia]).
    destruct (negb (s =? d)%string); [reflexivity|]. apply IH; [exact C|lia|lia].
Qed.
Lemma res_next c size v l p desc start : size <= 16 -> size * 8 <= len l -> p <= size * 8 ->
  reserved_next c (Rv size v p l desc start) = Val (res_result size v l (rest_at size p l) p desc start 0).
Proof. intros H1 H2 H3. unfold reserved_next. apply res_loop; try assumption; [reflexivity|apply rest_length]. Qed.

Lemma res_drains c size v l : size <= 16 -> size * 8 <= len l -> forall rest p desc start fin,
  rest_at size p l = rest -> p <= size * 8 -> exists s',
  none_forever (reserved_next c) s' /\
  match res_result size v l rest p desc start fin with
  | (Some x, s1) => exists l', res_list rest p desc start fin = x :: l' /\ drains (reserved_next c) s1 l' s'
  | (None, s1) => res_list rest p desc start fin = [] /\ s1 = s'
  end.
Proof.
  intros H1 H2.
  assert (REnd : rest_at size (size * 8) l = []).
  { destruct (rest_at size (size * 8) l) eqn:E; [reflexivity|]. apply rest_cons in E; lia. }
  assert (NF : forall start, none_forever (reserved_next c) (Rv size v (size * 8) l None start)).
  { intros start n. induction n as [|n IH]; [exact I|]. cbn [nones]. eexists. split; [|exact IH].
    rewrite res_next by (assumption || lia). rewrite REnd. reflexivity. }
  assert (Next : forall p desc start, p <= size * 8 ->
    (exists s', none_forever (reserved_next c) s' /\
     match res_result size v l (rest_at size p l) p desc start 0 with
     | (Some x, s1) => exists l', res_list (rest_at size p l) p desc start 0 = x :: l' /\ drains (reserved_next c) s1 l' s'
     | (None, s1) => res_list (rest_at size p l) p desc start 0 = [] /\ s1 = s'
     end) -> exists s', none_forever (reserved_next c) s' /\
     drains (reserved_next c) (Rv size v p l desc start) (res_list (rest_at size p l) p desc start 0) s').
  { intros p desc start HP [s' [N H]]. exists s'. split; [exact N|].
    assert (E := res_next c size v l p desc start H1 H2 HP).
    destruct (res_result size v l (rest_at size p l) p desc start 0) as [[x|] s1].
    - destruct H as [l' [-> D]]. econstructor; eassumption.
    - destruct H as [-> ->]. constructor. exact E. }
  induction rest as [|t rest IH]; intros p desc start fin R HP; cbn [res_result res_list].
  - exists (Rv size v (size * 8) l None start). split; [apply NF|]. destruct desc as [d|].
    + exists []. split; [reflexivity|]. constructor. rewrite res_next by (assumption || lia). rewrite REnd. reflexivity.
    + split; reflexivity.
  - destruct (rest_cons _ _ _ _ _ HP H2 R) as [A [B C]].
    assert (Go : forall desc start, exists s', none_forever (reserved_next c) s' /\
      drains (reserved_next c) (Rv size v (p + 1) l desc start) (res_list rest (p + 1) desc start 0) s').
    { intros desc' start'. rewrite <- C. apply Next; [lia|]. rewrite C. apply IH; [exact C|lia]. }
    destruct t as [|m ds|s], desc as [d|]; try (apply IH; [exact C|lia]);
    try (destruct (Go None start) as [s' [N D]]; exists s'; split; [exact N|]; eexists; split; [reflexivity|exact D]).
    destruct (negb (s =? d)%string); [|apply IH; [exact C|lia]].
    destruct (Go (Some s) p) as [s' [N D]]. exists s'. split; [exact N|]. eexists. split; [reflexivity|exact D].
Qed.
Lemma res_all c size v l : size <= 16 -> size * 8 <= len l -> exists s',
  drains (reserved_next c) (reserved_new (iter_new size v l)) (res_list (take (size * 8) l) 0 None 0 0) s' /\
  none_forever (reserved_next c) s'.
Proof.
  intros H1 H2. assert (R0 : rest_at size 0 l = take (size * 8) l) by (unfold rest_at; rewrite N.sub_0_r; reflexivity).
  destruct (res_drains c size v l H1 H2 _ 0 None 0 0 R0 ltac:(lia)) as [s' [N H]]. exists s'. split; [|exact N].
  assert (E := res_next c size v l 0 None 0 H1 H2 ltac:(lia)). rewrite R0 in E.
  change (reserved_new (iter_new size v l)) with (Rv size v 0 l None 0).
  destruct (res_result size v l (take (size * 8) l) 0 None 0 0) as [[x|] s1].
  - destruct H as [l' [-> D]]. econstructor; eassumption.
  - destruct H as [-> ->]. constructor. exact E.
Qed.

Definition state_ok (l : Layout) (p : N) (desc : option string) (start fin : N) : Prop :=
  match desc with
  | None => 0 < p -> forall d, entry l (p - 1) <> Some (FReserved d)
  | Some d => start < p /\ (forall q, start <= q < p -> entry l q = Some (FReserved d)) /\
      (0 < start -> entry l (start - 1) <> Some (FReserved d)) /\
      ((start + 1 = p /\ follows_run l start /\ fin = 0) \/ (~ (start + 1 = p /\ follows_run l start) /\ fin = p - 1))
  end.

Lemma run_done l p d start fin x : state_ok l p (Some d) start fin -> entry l p <> Some (FReserved d) ->
  (reported l x /\ start <= range_start x < p <-> x = RR d start fin).
Proof.
  intros [S1 [S2 [S3 S4]]] HE. split.
  - destruct x as [d' a e]. intros [[b [[R1 [R2 [R3 R4]]] R]] [H1 H2]]. cbn [description range_start range_end] in *.
    assert (d' = d). { assert (X := R2 a ltac:(lia)). rewrite S2 in X by lia. congruence. } subst d'.
    assert (a = start). { destruct (N.eq_dec a start); [assumption|]. exfalso. apply R3; [lia|]. apply S2. lia. } subst a.
    assert (b = p - 1).
    { destruct (N.lt_trichotomy b (p - 1)) as [X|[X|X]]; [exfalso|exact X|exfalso].
      - apply R4, S2. lia.
      - apply HE, R2. lia. }
    subst b. unfold RR. f_equal.
    destruct R as [[A [B ->]]|[A ->]], S4 as [[C [D ->]]|[C ->]]; try reflexivity; exfalso.
    + apply C. split; [lia|]. rewrite A in B. exact B.
    + apply A. split; [lia|]. replace (p - 1) with start by lia. exact D.
  - intros ->. unfold reported, RR. cbn [RR description range_start range_end]. split; [|lia].
    exists (p - 1). split.
    + split; [lia|]. split; [intros q Q; apply S2; lia|]. split; [exact S3|]. replace (p - 1 + 1) with p by lia. exact HE.
    + destruct S4 as [[C [D ->]]|[C ->]]; [left|right].
      * replace (p - 1) with start by lia. auto.
      * split; [|reflexivity]. intros [A B]. apply C. split; [lia|]. rewrite <- A. exact B.
Qed.

Lemma reported_entry l x : reported l x -> entry l (range_start x) = Some (FReserved (description x)).
Proof. intros [b [[R1 [R2 _]] _]]. apply R2. lia. Qed.
Lemma entry_lt l p t : entry l p = Some t -> p < len l.
Proof. intros H. assert (N : nth_error l (N.to_nat p) <> None) by (unfold entry in H; congruence). apply nth_error_Some in N. unfold len. lia. Qed.

Definition lower (desc : option string) (p start : N) : N := match desc with Some _ => start | None => p end.

Lemma res_spec l : forall rest p desc start fin x, drop p l = rest -> p <= len l -> state_ok l p desc start fin ->
  (In x (res_list rest p desc start fin) <-> reported l x /\ lower desc p start <= range_start x).
Proof.
  induction rest as [|t rest IH]; intros p desc start fin x D HP HS.
  - assert (P : p = len l) by (apply (f_equal len) in D; lens; lia).
    assert (HE : forall t, entry l p <> Some t) by (intros t E; apply entry_lt in E; lia).
    cbn [res_list]. destruct desc as [d|]; cbn [lower In].
    + assert (K := run_done l p d start fin x HS (HE _)). split.
      * intros [E|[]]. symmetry in E. apply K in E. split; [tauto|lia].
      * intros [H1 H2]. left. symmetry. apply K. split; [exact H1|]. apply reported_entry, entry_lt in H1. lia.
    + split; [tauto|]. intros [H1 H2]. apply reported_entry, entry_lt in H1. lia.
  - assert (P : p < len l) by (apply (f_equal len) in D; lens; lia).
    destruct (drop_entry _ _ _ _ D) as [E D']. cbn [res_list].
    assert (NONE : (forall s, t <> FReserved s) -> state_ok l (p + 1) None start fin /\ state_ok l (p + 1) None start p /\ state_ok l (p + 1) None start 0).
    { intros T. assert (Z : state_ok l (p + 1) None start 0).
      { intros _ d. replace (p + 1 - 1) with p by lia. rewrite E. intros X. injection X as X. exact (T _ X). }
      split; [|split]; exact Z. }
    assert (OTHER : (forall s, t <> FReserved s) -> forall fin' y, fin' = p \/ fin' = 0 -> 
       (In y (res_list rest (p + 1) None start fin') <-> reported l y /\ p <= range_start y)).
    { intros T fin' y F. destruct (NONE T) as [_ [N1 N2]]. rewrite IH; [|exact D'|lia|destruct F; subst; assumption].
      cbn [lower]. split; [intros [A B]; split; [exact A|lia]|]. intros [A B]. split; [exact A|].
      destruct (N.eq_dec (range_start y) p) as [Q|Q]; [|lia]. apply reported_entry in A. rewrite Q, E in A.
      injection A as A. destruct (T _ A). }
    assert (SPLIT : forall d y, state_ok l p (Some d) start fin -> t <> FReserved d ->
       (y = RR d start fin \/ (reported l y /\ p <= range_start y) <-> reported l y /\ start <= range_start y)).
    { intros d y S T. assert (K := run_done l p d start fin y S ltac:(rewrite E; congruence)).
      assert (SP : start < p) by apply S. rewrite <- K. split.
      - intros [[A B]|[A B]]; split; (assumption || lia).
      - intros [A B]. destruct (N.lt_ge_cases (range_start y) p); [left|right]; split; (assumption || lia). }
    destruct desc as [d|]; [destruct t as [|m ds|s]|destruct t as [|m ds|s]]; cbn [lower].
    + cbn [In]. rewrite (OTHER ltac:(discriminate) 0 x (or_intror eq_refl)).
      rewrite <- (SPLIT d x HS ltac:(discriminate)). intuition.
    + cbn [In]. rewrite (OTHER ltac:(discriminate) 0 x (or_intror eq_refl)).
      rewrite <- (SPLIT d x HS ltac:(discriminate)). intuition.
    + destruct (String.eqb_spec s d) as [->|N]; cbn [negb].
      * rewrite IH; [reflexivity|exact D'|lia|]. destruct HS as [S1 [S2 [S3 S4]]].
        split; [lia|]. split; [intros q Q; destruct (N.eq_dec q p) as [->|]; [exact E|apply S2; lia]|].
        split; [exact S3|]. right. lia.
      * cbn [In]. rewrite IH; [|exact D'|lia|].
        -- cbn [lower]. rewrite <- (SPLIT d x HS ltac:(congruence)). intuition.
        -- destruct HS as [S1 [S2 _]]. assert (EP : entry l (p - 1) = Some (FReserved d)) by (apply S2; lia).
           split; [lia|]. split; [intros q Q; replace q with p by lia; exact E|].
           split; [intros _; rewrite EP; congruence|]. left. split; [reflexivity|]. split; [|reflexivity].
           split; [lia|]. exists d. exact EP.
    + apply OTHER; [discriminate|left; reflexivity].
    + apply OTHER; [discriminate|left; reflexivity].
    + rewrite IH; [reflexivity|exact D'|lia|]. split; [lia|].
      split; [intros q Q; replace q with p by lia; exact E|]. split; [intros Z; apply HS, Z|].
      right. split; [|lia]. intros [_ [Z [d X]]]. exact (HS Z d X).
Qed.

Lemma res_ascending l rest : forall p desc start fin, drop p l = rest -> p <= len l -> state_ok l p desc start fin ->
  ascending (map range_start (res_list rest p desc start fin)).
Proof.
  induction rest as [|t rest IH]; intros p desc start fin D HP HS.
  - destruct desc; cbn; exact I.
  - assert (P : p < len l) by (apply (f_equal len) in D; lens; lia).
    destruct (drop_entry _ _ _ _ D) as [E D']. cbn [res_list].
    assert (N : (forall s, t <> FReserved s) -> forall f, state_ok l (p + 1) None start f).
    { intros T f _ d. replace (p + 1 - 1) with p by lia. rewrite E. intros X. injection X as X. exact (T _ X). }
    assert (CONS : forall d desc' st, start < p -> state_ok l (p + 1) desc' st 0 -> p <= lower desc' (p + 1) st ->
      ascending (map range_start (RR d start fin :: res_list rest (p + 1) desc' st 0))).
    { intros d desc' st SP S LB. specialize (IH (p + 1) desc' st 0 D' ltac:(lia) S).
      cbn [map]. cbn [RR range_start]. destruct (res_list rest (p + 1) desc' st 0) as [|y r] eqn:R; [exact I|].
      cbn [map] in *. cbn [ascending]. split; [|exact IH].
      assert (Y : In y (res_list rest (p + 1) desc' st 0)) by (rewrite R; left; reflexivity).
      apply (res_spec l) in Y; [|exact D'|lia|exact S]. lia. }
    destruct desc as [d|].
    + assert (SP : start < p) by apply HS.
      destruct t as [|m ds|s]; [apply CONS; [exact SP|apply N; discriminate|cbn; lia]..|].
      destruct (String.eqb_spec s d) as [->|NE]; cbn [negb].
      * apply IH; [exact D'|lia|]. destruct HS as [S1 [S2 [S3 S4]]].
        split; [lia|]. split; [intros q Q; destruct (N.eq_dec q p) as [->|]; [exact E|apply S2; lia]|].
        split; [exact S3|]. right. lia.
      * apply CONS; [exact SP| |cbn; lia]. destruct HS as [S1 [S2 _]].
        assert (EP : entry l (p - 1) = Some (FReserved d)) by (apply S2; lia).
        split; [lia|]. split; [intros q Q; replace q with p by lia; exact E|].
        split; [intros _; rewrite EP; congruence|]. left. split; [reflexivity|]. split; [|reflexivity].
        split; [lia|]. exists d. exact EP.
    + destruct t as [|m ds|s]; [apply IH; [exact D'|lia|apply N; discriminate]..|].
      apply IH; [exact D'|lia|]. split; [lia|].
      split; [intros q Q; replace q with p by lia; exact E|]. split; [intros Z; apply HS, Z|].
      right. split; [|lia]. intros [_ [Z [d X]]]. exact (HS Z d X).
Qed.

Lemma res_drain_spec c size v l : size <= 16 -> size * 8 <= len l -> exists xs s',
  drains (reserved_next c) (reserved_new (iter_new size v l)) xs s' /\ none_forever (reserved_next c) s' /\
  ascending (map range_start xs) /\ forall x, In x xs <-> reported (take (size * 8) l) x.
Proof.
  intros H1 H2. destruct (res_all c size v l H1 H2) as [s' [D N]].
  exists (res_list (take (size * 8) l) 0 None 0 0), s'. split; [exact D|]. split; [exact N|].
  assert (S : state_ok (take (size * 8) l) 0 None 0 0) by (intros Z; lia). split.
  - apply res_ascending with (l := take (size * 8) l); [reflexivity|lia|exact S].
  - intros x. rewrite (res_spec (take (size * 8) l)); [|reflexivity|lia|exact S]. cbn [lower]. split; [tauto|]. intros H. split; [exact H|lia].
Qed.
Lemma res_drain_right c size v l : size <= 16 -> size * 8 <= len l -> no_single_second (take (size * 8) l) -> exists xs s',
  drains (reserved_next c) (reserved_new (iter_new size v l)) xs s' /\ none_forever (reserved_next c) s' /\
  ascending (map range_start xs) /\
  forall x, In x xs <-> run (take (size * 8) l) (description x) (range_start x) (range_end x).
Proof.
  intros H1 H2 H3. destruct (res_drain_spec c size v l H1 H2) as [xs [s' [D [N [A S]]]]]. exists xs, s'.
  split; [exact D|]. split; [exact N|]. split; [exact A|]. intros x. rewrite S. split.
  - intros [b [R [[E [F _]]|[_ E]]]]; [|congruence]. exfalso. rewrite E in R. apply (H3 _ _ R). rewrite <- E. exact F.
  - intros R. exists (range_end x). split; [exact R|]. right. split; [|reflexivity]. intros [E F].
    rewrite <- E in R. exact (H3 _ _ R F).
Qed.

(* ------------------------------------------------- the layouts of the crate *)

Definition same (a : option FlagType) (d : string) : bool :=
  match a with Some (FReserved s) => String.eqb s d | _ => false end.
Lemma same_iff a d : same a d = true <-> a = Some (FReserved d).
Proof.
  unfold same. destruct a as [[|m x|s]|]; try (split; discriminate). rewrite String.eqb_eq. split; [intros ->|intros E; injection E]; auto.
Qed.
Definition single_at (l : Layout) (a : nat) : bool :=
  match nth_error l (S a) with
  | Some (FReserved d) =>
    negb (same (nth_error l (S (S a))) d) &&
    match nth_error l a with Some (FReserved _) => negb (same (nth_error l a) d) | _ => false end
  | _ => false
  end.
Definition no_single_second_b (l : Layout) : bool := forallb (fun a => negb (single_at l a)) (seq 0 (length l)).
Lemma no_single_second_check l : no_single_second_b l = true -> no_single_second l.
Proof.
  unfold no_single_second_b. rewrite forallb_forall. intros H d a [R1 [R2 [R3 R4]]] [Z [d' E]].
  assert (E0 := R2 a ltac:(lia)). specialize (R3 Z).
  assert (LT := entry_lt l a _ E0). unfold entry in *.
  specialize (H (N.to_nat (a - 1))). rewrite in_seq in H. unfold len in LT. specialize (H ltac:(lia)).
  unfold single_at in H. replace (S (N.to_nat (a - 1))) with (N.to_nat a) in H by lia.
  replace (S (N.to_nat a)) with (N.to_nat (a + 1)) in H by lia.
  rewrite E0, E in H.
  destruct (same (nth_error l (N.to_nat (a + 1))) d) eqn:S1; [apply same_iff in S1; contradiction|].
  destruct (same (Some (FReserved d')) d) eqn:S2; [apply same_iff in S2; congruence|]. discriminate H.
Qed.
Lemma shipped_widths : Forall (fun x => fst x * 8 = len (snd x) /\ fst x <= 16) all_layouts.
Proof. repeat constructor; vm_compute; (reflexivity || discriminate). Qed.
Lemma shipped_no_single : Forall (fun x => no_single_second (snd x)) all_layouts.
Proof.
  apply Forall_forall. intros x H. apply no_single_second_check.
  assert (A : forallb (fun x => no_single_second_b (snd x)) all_layouts = true) by (vm_compute; reflexivity).
  rewrite forallb_forall in A. exact (A x H).
Qed.

(* ------------------------------------------------------------ the layout macro *)

Lemma set_at_app pre x post t : set_at (length pre) t (pre ++ x :: post) = pre ++ t :: post.
Proof. induction pre as [|y pre IH]; cbn; [reflexivity|]. rewrite IH. reflexivity. Qed.
Lemma set_range_app t : forall mid pre post,
  set_range (length pre) (length mid) t (pre ++ mid ++ post) = pre ++ repeat t (length mid) ++ post.
Proof.
  induction mid as [|x mid IH]; intros pre post; [reflexivity|]. cbn [length set_range repeat app].
  rewrite set_at_app. replace (S (length pre)) with (length (pre ++ [t])) by (rewrite app_length; cbn; lia).
  replace (pre ++ t :: mid ++ post) with ((pre ++ [t]) ++ mid ++ post) by (rewrite <- app_assoc; reflexivity).
  rewrite IH, <- app_assoc. reflexivity.
Qed.
Lemma repeat_plus {A} (x : A) a b : repeat x (a + b) = repeat x a ++ repeat x b.
Proof. induction a; cbn; [reflexivity|]. f_equal. assumption. Qed.

Lemma fill_spec : forall items pre arr,
  (length (concat (map expand items)) <= length arr)%nat ->
  layout_fill (length pre) items (pre ++ arr) =
  pre ++ concat (map expand items) ++ skipn (length (concat (map expand items))) arr.
Proof.
  induction items as [|i items IH]; intros pre arr HL; [reflexivity|].
  cbn [map concat] in *. rewrite app_length in HL. cbn [layout_fill].
  assert (G : forall k, k = length (expand i) -> exists mid arr', arr = mid ++ arr' /\ length mid = k /\
    layout_fill (length pre + k) items (pre ++ arr) = pre ++ mid ++ concat (map expand items) ++ skipn (length (concat (map expand items))) arr').
  { intros k ->. exists (firstn (length (expand i)) arr), (skipn (length (expand i)) arr).
    split; [symmetry; apply firstn_skipn|]. assert (length (firstn (length (expand i)) arr) = length (expand i)) as L by (rewrite firstn_length; lia).
    split; [exact L|]. rewrite <- (firstn_skipn (length (expand i)) arr) at 1. rewrite app_assoc.
    replace (length pre + length (expand i))%nat with (length (pre ++ firstn (length (expand i)) arr)) by (rewrite app_length; lia).
    rewrite IH by (rewrite skipn_length; lia). rewrite <- app_assoc. reflexivity. }
  assert (One : forall x t, expand i = [t] ->
    layout_fill (S (length pre)) items (pre ++ arr) = x -> set_at (length pre) t x = 
    pre ++ (expand i ++ concat (map expand items)) ++ skipn (length (expand i ++ concat (map expand items))) arr).
  { intros x t E <-. destruct (G 1%nat ltac:(rewrite E; reflexivity)) as [mid [arr' [A [B C]]]].
    replace (length pre + 1)%nat with (S (length pre)) in C by lia. rewrite C.
    destruct mid as [|m [|]]; try discriminate B. cbn [app]. rewrite set_at_app, E. subst arr. reflexivity. }
  destruct i as [s|s l|d n].
  - apply One; reflexivity.
  - apply One; reflexivity.
  - destruct (G (N.to_nat n) ltac:(cbn [expand]; rewrite repeat_length; reflexivity)) as [mid [arr' [A [B C]]]].
    rewrite C, <- B, set_range_app. cbn [expand]. rewrite B, <- app_assoc. do 3 f_equal.
    rewrite app_length, repeat_length. subst arr. rewrite <- B.
    rewrite <- skipn_skipn', skipn_app, skipn_all, Nat.sub_diag. reflexivity.
Qed.
Lemma layout_spec n items : len (concat (map expand items)) <= n ->
  layout n items = concat (map expand items) ++ repeat FUnknown (N.to_nat (n - len (concat (map expand items)))).
Proof.
  unfold len. intros H. unfold layout. assert (E := fill_spec items [] (repeat FUnknown (N.to_nat n))). cbn [length app] in E.
  rewrite E by (rewrite repeat_length; lia). clear E. f_equal.
  replace (N.to_nat n) with (length (concat (map expand items)) + N.to_nat (n - N.of_nat (length (concat (map expand items)))))%nat at 1 by lia.
  rewrite repeat_plus, skipn_app, repeat_length, Nat.sub_diag.
  rewrite skipn_all2 by (rewrite repeat_length; lia). reflexivity.
Qed.
