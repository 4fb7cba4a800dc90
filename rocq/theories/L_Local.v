From Coq Require Import ZArith Lia ZifyBool ZifyNat ZifyN.
From Verif Require Import Base G_Enums M_Raw M_Entry M_Iter Spec S_Iter S_Local L_Base L_Iter L_After L_Frame L_Table.
Ltac Zify.zify_post_hook ::= Z.div_mod_to_equations.
Local Open Scope N_scope.

(* ------------------------------------------------------- bytes put in front *)

Lemma framed_shift v p buf pos r : framed v buf pos r -> framed v (p ++ buf) (len p + pos) r.
Proof.
  intros [pre [post [k [h0 [h1 [E [L R]]]]]]]. exists (p ++ pre), post, k, h0, h1.
  split; [rewrite E, <- app_assoc; reflexivity|]. split; [rewrite len_app; lia|exact R].
Qed.

Lemma shifted_moved p q s : shifted p (moved_to q s) = moved_to (len p + q) (shifted p s).
Proof. reflexivity. Qed.
Lemma shifted_stopped p q s : shifted p (stopped_at q s) = stopped_at (len p + q) (shifted p s).
Proof. reflexivity. Qed.

Lemma sane_unshift p s : sane (shifted p s) -> sane s.
Proof.
  intros [A [B C]]. cbn [shifted buffer idx] in *. rewrite len_app in C. apply all_bytes_app in A.
  split; [apply A|]. lia.
Qed.

Lemma further_dispatch k c r x : dispatch c r = Val x -> further k x = x.
Proof.
  intros D. destruct x as [y|e]; [reflexivity|]. pose proof (fine_dispatch c r e D) as F.
  destruct e; try reflexivity; destruct (F I).
Qed.

Definition shift_result (p : list N) (x : out (option (res Structure) * Structures)) : out (option (res Structure) * Structures) :=
  omap (fun y => (option_map (further (len p)) (fst y), shifted p (snd y))) x.

Lemma next_shift c p s : sane (shifted p s) -> next c (shifted p s) = shift_result p (next c s).
Proof.
  intros HT. pose proof (sane_unshift p s HT) as HS. apply next_iff; [exact HT|].
  assert (D : forall n, drop (len p + n) (p ++ buffer s) = drop n (buffer s)).
  { intros n. rewrite drop_app_ge by lia. f_equal. lia. }
  pose proof (next_step c s HS) as H.
  assert (LS : smbios_len_ (shifted p s) = len p + smbios_len_ s) by reflexivity.
  assert (LI : idx (shifted p s) = len p + idx s) by reflexivity.
  assert (LB : len (buffer (shifted p s)) = len p + len (buffer s)) by (cbn [shifted buffer]; apply len_app).
  assert (LD : forall n, drop (idx (shifted p s) + n) (buffer (shifted p s)) = drop (idx s + n) (buffer s)).
  { intros n. cbn [shifted idx buffer]. rewrite <- N.add_assoc. apply D. }
  inversion H as [H1 E|H1 H2 E|H1 H2 E|pre post kind l h0 h1 H1 EB EL H2 E|pre post kind l h0 h1 EB EL H1 H2 H3 E
    |pre post kind l h0 h1 EB EL H1 H2 H3 ND E|pre post kind l h0 h1 x y EB EL H1 H2 H3 ED E|r item F H1 H2 DI E|r F H1 H2 DI E|r F H1 H2 DI E];
    cbn [shift_result omap obind fst snd option_map].
  - apply table_done. lia.
  - apply position_past_buffer; lia.
  - apply header_past_buffer; lia.
  - cbn [further]. rewrite shifted_stopped.
    apply (length_past_table c (shifted p s) (p ++ pre) post kind l h0 h1); try lia; [|rewrite len_app; lia].
    cbn [shifted buffer]. rewrite EB, <- app_assoc. reflexivity.
  - apply (length_past_buffer c (shifted p s) (p ++ pre) post kind l h0 h1); try lia; [|rewrite len_app; lia].
    cbn [shifted buffer]. rewrite EB, <- app_assoc. reflexivity.
  - cbn [further]. rewrite shifted_stopped.
    apply (strings_not_terminated c (shifted p s) (p ++ pre) post kind l h0 h1); try lia; [|rewrite len_app; lia|rewrite LD; exact ND].
    cbn [shifted buffer]. rewrite EB, <- app_assoc. reflexivity.
  - apply (length_below_header c (shifted p s) (p ++ pre) post kind l h0 h1 x y); try lia; [|rewrite len_app; lia|rewrite LD; exact ED].
    cbn [shifted buffer]. rewrite EB, <- app_assoc. reflexivity.
  - rewrite (further_dispatch _ c r item DI).
    replace (shifted p (if (3 <=? major (smbios_version s)) && is_end (info r)
        then stopped_at (idx s + extent r) s else moved_to (idx s + extent r) s))
      with (if (3 <=? major (smbios_version (shifted p s))) && is_end (info r)
        then stopped_at (idx (shifted p s) + extent r) (shifted p s) else moved_to (idx (shifted p s) + extent r) (shifted p s)).
    + apply decoded; try lia; [apply framed_shift; exact F|exact DI].
    + change (smbios_version (shifted p s)) with (smbios_version s).
      destruct (_ && _); [rewrite shifted_stopped|rewrite shifted_moved]; f_equal; lia.
  - apply (decoder_panics c (shifted p s) r); try lia; [apply framed_shift; exact F|exact DI].
  - apply (decoder_overreads c (shifted p s) r); try lia; [apply framed_shift; exact F|exact DI].
Qed.

Lemma runs_shift c p s l e : runs (next c) s l e -> sane (shifted p s) ->
  runs (next c) (shifted p s) (map (further (len p)) l) (shifted_ending p e).
Proof.
  induction 1 as [s s' H|s H|s H|s a s1 l e H R IH]; intros HS; pose proof (next_shift c p s HS) as E;
    rewrite H in E; cbn in E.
  - apply runs_none. exact E.
  - apply runs_panic. exact E.
  - apply runs_ub. exact E.
  - cbn [map]. eapply runs_some; [exact E|]. apply IH. exact (proj1 (next_sane c _ _ _ HS E)).
Qed.

Lemma runs_unshift c p s l e : runs (next c) (shifted p s) l e -> sane (shifted p s) ->
  exists l0 e0, runs (next c) s l0 e0 /\ l = map (further (len p)) l0 /\ e = shifted_ending p e0.
Proof.
  intros R HS. destruct (runs_exists c s (sane_unshift p s HS)) as [l0 [e0 [R0 _]]].
  destruct (runs_fun _ _ _ _ _ _ R (runs_shift c p s l0 e0 R0 HS)) as [-> ->]. eauto.
Qed.

(* --------------------------------------------------- agreeing up to a point *)

(* up to position p the two iterators see the same bytes, and the second one is
   announced with at least as many *)
Definition agree (p : N) (s t : Structures) : Prop :=
  smbios_version s = smbios_version t /\ idx s = idx t /\ smbios_len_ s <= smbios_len_ t /\
  p <= len (buffer s) /\ p <= len (buffer t) /\ take p (buffer s) = take p (buffer t).

Lemma framed_agree v b b' pos r p : framed v b pos r -> pos + extent r <= p -> p <= len b -> p <= len b' -> take p b = take p b' ->
  exists r', framed v b' pos r' /\ bare r' = bare r.
Proof.
  intros [pre [post [k [h0 [h1 [E [L [LL [A [I [H [V AF]]]]]]]]]]]] HP HB HB' HT.
  assert (EX : extent r = len ([k; length_ r; h0; h1] ++ data r ++ strings r)).
  { unfold extent. rewrite !len_app. change (len [k; length_ r; h0; h1]) with 4. lia. }
  assert (ET : take (pos + extent r) b = pre ++ [k; length_ r; h0; h1] ++ data r ++ strings r).
  { rewrite E. replace (pre ++ [k; length_ r; h0; h1] ++ data r ++ strings r ++ post)
      with ((pre ++ [k; length_ r; h0; h1] ++ data r ++ strings r) ++ post) by (rewrite <- !app_assoc; reflexivity).
    apply take_app_exact. rewrite EX, !len_app. lia. }
  assert (ET' : take (pos + extent r) b' = take (pos + extent r) b).
  { transitivity (take (pos + extent r) (take p b')); [rewrite take_take; f_equal; lia|].
    rewrite <- HT, take_take. f_equal. lia. }
  set (post' := drop (pos + extent r) b').
  assert (EB : b' = pre ++ [k; length_ r; h0; h1] ++ data r ++ strings r ++ post').
  { rewrite <- (take_drop (pos + extent r) b') at 1. rewrite ET', ET, <- !app_assoc. reflexivity. }
  exists {| version := version r; info := info r; length_ := length_ r; handle := handle r; data := data r;
            strings := strings r; after := strings r ++ post' |}.
  split; [|reflexivity]. exists pre, post', k, h0, h1. cbn [version info length_ handle data strings after]. auto 10.
Qed.

Lemma bare_facts r r' : bare r' = bare r -> length_ r' = length_ r /\ info r' = info r /\ extent r' = extent r.
Proof.
  intros B. 
  assert (BL : length_ r' = length_ r) by (change (length_ (bare r') = length_ (bare r)); congruence).
  assert (BI : info r' = info r) by (change (info (bare r') = info (bare r)); congruence).
  assert (BS : strings r' = strings r) by (change (strings (bare r') = strings (bare r)); congruence).
  split; [exact BL|]. split; [exact BI|]. unfold extent. congruence.
Qed.

(* one call that returned the structure ending at q <= p *)
Lemma next_agree c p s t x s' : flat_memory c = false -> sane s -> sane t -> agree p s t ->
  next c s = Val (Some x, s') -> smbios_len_ s' = smbios_len_ s -> goes_on (smbios_version s) [x] -> idx s' <= p ->
  exists x', next c t = Val (Some x', moved_to (idx s') t) /\ seen x' = seen x /\ s' = moved_to (idx s') s.
Proof.
  intros HF HS HT [AV [AI [AL [AB [AB' AT]]]]] HN HL HG HP.
  destruct (next_framing c s x s' HS HN) as [HI _].
  destruct (next_item c s x s' HS HN) as [[e [E [_ ->]]]|[r [[F [H1 H2]] [D ES]]]].
  { cbn [stopped_at smbios_len_] in HL. exfalso. lia. }
  assert (ES' : s' = moved_to (idx s + extent r) s).
  { rewrite ES. destruct (N.leb_spec 3 (major (smbios_version s))) as [H3|H3]; [|reflexivity].
    destruct (is_end (info r)) eqn:EE; [|reflexivity]. exfalso.
    assert (IE : info r = InfoType_End) by (destruct (info r); try discriminate EE; reflexivity).
    rewrite (dispatch_end c r IE) in D. injection D as <-. apply (HG H3 r); [left; reflexivity|exact IE]. }
  clear ES. subst s'. cbn [moved_to idx] in *.
  destruct (framed_agree _ _ (buffer t) _ _ p F HP AB AB' AT) as [r' [F' B]].
  destruct (bare_facts r r' B) as [BL [BI BE]].
  pose proof (dispatch_same c r' r HF B) as DS. rewrite D in DS. cbn [omap obind] in DS.
  destruct (dispatch c r') as [x'| |] eqn:D'; try discriminate DS. cbn in DS. injection DS as DS.
  exists x'. split; [|split; [exact DS|reflexivity]].
  rewrite AV, AI in F'. rewrite (next_framed c t r' HT F'); [|rewrite ?BL; lia..]. rewrite D'. cbn [obind].
  rewrite BI, BE, <- AI, <- AV.
  destruct (N.leb_spec 3 (major (smbios_version s))) as [H3|H3]; [|reflexivity].
  destruct (is_end (info r)) eqn:EE; [|reflexivity]. exfalso.
  assert (IE : info r = InfoType_End) by (destruct (info r); try discriminate EE; reflexivity).
  rewrite (dispatch_end c r IE) in D. injection D as <-. apply (HG H3 r); [left; reflexivity|exact IE].
Qed.

Lemma next_len c s x s' : sane s -> next c s = Val (Some x, s') ->
  smbios_len_ s' <= smbios_len_ s \/ idx s' = smbios_len_ s'.
Proof.
  intros HS HN. destruct (next_item c s x s' HS HN) as [[e [_ [_ ->]]]|[r [_ [_ ->]]]]; [right; reflexivity|].
  destruct (_ && _); [right; reflexivity|left; cbn [moved_to smbios_len_]; lia].
Qed.

Lemma reaches_sane c s l s' : reaches (next c) s l s' -> sane s -> sane s' /\ buffer s' = buffer s.
Proof.
  induction 1 as [s|s a s1 l s' E R IH]; intros HS; [split; [exact HS|reflexivity]|].
  destruct (next_sane c _ _ _ HS E) as [HS1 EB]. destruct (IH HS1) as [H1 H2]. split; [exact H1|congruence].
Qed.

(* a stopped iterator returns nothing more *)
Lemma reaches_stopped c s l s' : reaches (next c) s l s' -> sane s -> idx s = smbios_len_ s -> l = [] /\ s' = s.
Proof.
  intros R HS H. inversion R as [|? a s1 l1 ? E R1]; subst; [split; reflexivity|].
  rewrite (stopped_none c s HS) in E by lia. discriminate.
Qed.

Lemma reaches_agree c p s l s' : flat_memory c = false -> reaches (next c) s l s' -> forall t, sane s -> sane t -> agree p s t ->
  smbios_len_ s' = smbios_len_ s -> goes_on (smbios_version s) l -> idx s' <= p ->
  exists l', reaches (next c) t l' (moved_to (idx s') t) /\ map seen l' = map seen l /\ s' = moved_to (idx s') s.
Proof.
  intros HF R. induction R as [s|s a s1 l s' E R IH]; intros t HS HT HA HL HG HP.
  - exists []. split; [|split; [reflexivity|destruct s; reflexivity]]. destruct HA as [_ [<- _]] || destruct HA as [_ [HA _]]; rewrite ?HA; destruct t; apply reaches_here.
  - destruct (next_sane c _ _ _ HS E) as [HS1 EB].
    destruct (next_item c s a s1 HS E) as [[e [_ [_ ES]]]|[r [[F [H1 H2]] [D ES]]]].
    { exfalso. destruct (next_framing c s a s1 HS E) as [HI _].
      assert (I1 : idx s1 = smbios_len_ s1) by (subst s1; reflexivity).
      destruct (reaches_stopped c s1 l s' R HS1 I1) as [-> ->]. subst s1. cbn [stopped_at smbios_len_] in HL. lia. }
    assert (HG1 : goes_on (smbios_version s) [a]).
    { intros H3 q [Q|[]]. apply (HG H3). left. exact Q. }
    assert (ES' : s1 = moved_to (idx s + extent r) s).
    { rewrite ES. destruct (N.leb_spec 3 (major (smbios_version s))) as [H3|H3]; [|reflexivity].
      destruct (is_end (info r)) eqn:EE; [|reflexivity]. exfalso.
      assert (IE : info r = InfoType_End) by (destruct (info r); try discriminate EE; reflexivity).
      rewrite (dispatch_end c r IE) in D. injection D as <-. apply (HG1 H3 r); [left; reflexivity|exact IE]. }
    assert (HP1 : idx s1 <= idx s').
    { clear - R HS1. induction R as [s|s a s1 l s' E R IH]; [lia|].
      destruct (next_item c s a s1 HS1 E) as [[e [_ [_ ->]]]|[r [[F _] [_ ->]]]].
      - specialize (IH (proj1 (next_sane c _ _ _ HS1 E))). cbn [stopped_at idx] in IH. exact IH.
      - specialize (IH (proj1 (next_sane c _ _ _ HS1 E))). destruct (_ && _); cbn [stopped_at moved_to idx] in IH; lia. }
    destruct (next_agree c p s t a s1 HF HS HT HA E) as [x' [E' [X M]]];
      [rewrite ES'; reflexivity|exact HG1|lia|].
    destruct HA as [AV [AI [AL [AB [AB' AT]]]]].
    destruct (IH (moved_to (idx s1) t) HS1 (proj1 (next_sane c _ _ _ HT E'))) as [l' [R' [ML M']]].
    + rewrite M. unfold agree. cbn [moved_to smbios_version idx smbios_len_ buffer]. auto 10.
    + rewrite HL. rewrite M. reflexivity.
    + rewrite M. cbn [moved_to smbios_version]. intros H3 q Q. apply (HG H3). right. exact Q.
    + exact HP.
    + exists (x' :: l'). split; [eapply reaches_on; [exact E'|exact R']|]. split; [cbn [map]; rewrite X, ML; reflexivity|].
      rewrite M' at 1. rewrite M. reflexivity.
Qed.

Lemma reaches_runs {S A} (nx : S -> out (option A * S)) s l s' l' e : reaches nx s l s' -> runs nx s' l' e -> runs nx s (l ++ l') e.
Proof. induction 1 as [|s a s1 l s' E R IH]; intros H; [exact H|]. cbn [app]. eapply runs_some; [exact E|]. apply IH, H. Qed.

(* ------------------------------------------------------ one structure replaced *)

Lemma shifted_of v n b p q : p <= len b -> p <= q -> p <= n ->
  {| smbios_version := v; smbios_len_ := n; idx := q; buffer := b |} =
  shifted (take p b) {| smbios_version := v; smbios_len_ := n - p; idx := q - p; buffer := drop p b |}.
Proof.
  intros H1 H2 H3. unfold shifted. cbn [smbios_version smbios_len_ idx buffer]. rewrite len_take, take_drop.
  f_equal; lia.
Qed.

Lemma runs_same_rest c v n q b b' p l e :
  let s := {| smbios_version := v; smbios_len_ := n; idx := q; buffer := b |} in
  let t := {| smbios_version := v; smbios_len_ := n; idx := q; buffer := b' |} in
  sane s -> sane t -> len b = len b' -> p <= len b -> p <= q -> drop p b = drop p b' ->
  runs (next c) s l e -> exists e', runs (next c) t l e' /\ seen_ending e' = seen_ending e.
Proof.
  intros s t HS HT HL HP HQ HD R. destruct (N.le_gt_cases p n) as [HN|HN].
  - assert (ES : s = shifted (take p b) {| smbios_version := v; smbios_len_ := n - p; idx := q - p; buffer := drop p b |})
      by (apply shifted_of; lia).
    assert (ET : t = shifted (take p b') {| smbios_version := v; smbios_len_ := n - p; idx := q - p; buffer := drop p b' |})
      by (apply shifted_of; lia).
    rewrite ES in R, HS. rewrite ET in HT |- *. destruct (runs_unshift c _ _ _ _ R HS) as [l0 [e0 [R0 [-> ->]]]].
    exists (shifted_ending (take p b') e0). rewrite <- HD in HT |- *.
    replace (len (take p b)) with (len (take p b')) by (rewrite !len_take; lia).
    split; [apply runs_shift; assumption|]. destruct e0 as [s0| |]; try reflexivity.
    cbn [shifted_ending seen_ending shifted idx]. rewrite !len_take. f_equal. lia.
  - assert (N1 : next c s = Val (None, s)) by (apply stopped_none; [exact HS|cbn [s smbios_len_ idx]; lia]).
    assert (N2 : next c t = Val (None, t)) by (apply stopped_none; [exact HT|cbn [t smbios_len_ idx]; lia]).
    rewrite (runs_none_inv _ _ _ _ _ N1 R), (runs_none_end _ _ _ _ _ N1 R).
    exists (Exhausted t). split; [apply runs_none; exact N2|reflexivity].
Qed.

(* an iterator that has not been stopped is still announced with the same length *)
Lemma not_stopped c s l s' : reaches (next c) s l s' -> sane s -> idx s' + 4 <= smbios_len_ s' ->
  smbios_len_ s' = smbios_len_ s /\ goes_on (smbios_version s) l /\ smbios_version s' = smbios_version s.
Proof.
  intros R. induction R as [s|s a s1 l s' E R IH]; intros HS H; [split; [reflexivity|split; [intros _ r []|reflexivity]]|].
  destruct (next_sane c _ _ _ HS E) as [HS1 _].
  assert (NS : idx s1 <> smbios_len_ s1).
  { intros Q. destruct (reaches_stopped c s1 l s' R HS1 Q) as [_ ->]. lia. }
  destruct (IH HS1 H) as [A [B C]].
  destruct (next_item c s a s1 HS E) as [[e [_ [_ ->]]]|[r [HR [D ES]]]]; [destruct NS; reflexivity|].
  destruct ((3 <=? major (smbios_version s)) && is_end (info r)) eqn:EE; [subst s1; destruct NS; reflexivity|].
  subst s1. cbn [moved_to smbios_len_ smbios_version] in *. split; [exact A|]. split; [|exact C].
  intros H3 q [Q|Q] IE; [|exact (B H3 q Q IE)]. subst a.
  rewrite (dispatch_other c r q D) in IE. destruct (N.leb_spec 3 (major (smbios_version s))); [|lia].
  rewrite IE in EE. discriminate EE.
Qed.

Lemma replaced c v n pre x x' post l1 s1 r r' i s2 l2 en :
  flat_memory c = false ->
  let s := start v n (pre ++ x ++ post) in
  let t := start v n (pre ++ x' ++ post) in
  sane s -> sane t -> len x = len x' ->
  reaches (next c) s l1 s1 -> idx s1 = len pre -> here s1 r -> extent r = len x ->
  framed v (pre ++ x' ++ post) (len pre) r' -> extent r' = len x' -> len pre + length_ r' < n ->
  (info r = InfoType_End <-> info r' = InfoType_End) ->
  next c s1 = Val (Some i, s2) -> runs (next c) s2 l2 en ->
  exists l1', map seen l1' = map seen l1 /\
  match dispatch c r' with
  | Val i' => exists en', runs (next c) t (l1' ++ i' :: l2) en' /\ seen_ending en' = seen_ending en
  | Panic => runs (next c) t l1' Panicked
  | UB => runs (next c) t l1' Undefined
  end.
Proof.
  intros HF s t HS HT HX R1 EI [F [H1 H2]] XR F' XR' HLEN HE N1 R2.
  destruct (reaches_sane c s l1 s1 R1 HS) as [HS1 EB].
  (* not stopped before s1 *)
  assert (K : smbios_len_ s1 = n /\ goes_on v l1 /\ smbios_version s1 = v).
  { destruct (not_stopped c s l1 s1 R1 HS H1) as [A [B C]]. auto. }
  destruct K as [KL [KG KV]].
  assert (LP : len pre <= len (buffer s) /\ len pre <= len (buffer t)).
  { cbn [s t start buffer]. rewrite !len_app. lia. }
  destruct (reaches_agree c (len pre) s l1 s1 HF R1 t HS HT) as [l1' [R1' [M ES1]]].
  - unfold agree. cbn [s t start smbios_version idx smbios_len_ buffer]. rewrite !take_app_exact by reflexivity.
    rewrite !len_app. repeat split; try reflexivity; lia.
  - exact KL.
  - exact KG.
  - lia.
  - exists l1'. split; [exact M|]. rewrite EI in R1'. set (t1 := moved_to (len pre) t) in *.
    destruct (reaches_sane c t l1' t1 R1' HT) as [HT1 _].
    assert (NT : next c t1 = let! x := dispatch c r' in
      Val (Some x, if (3 <=? major v) && is_end (info r') then stopped_at (len pre + extent r') t1 else moved_to (len pre + extent r') t1)).
    { apply (next_framed c t1 r' HT1); [exact F'| |].
      - change (len pre + 4 <= n). lia.
      - change (len pre + length_ r' < n). exact HLEN. }
    destruct (dispatch c r') as [i'| |]; cbn [obind] in NT.
    + assert (NS : s2 = if (3 <=? major v) && is_end (info r) then stopped_at (len pre + extent r) s1 else moved_to (len pre + extent r) s1).
      { rewrite (next_framed c s1 r HS1 F H1 H2) in N1. destruct (dispatch c r) as [j| |]; cbn [obind] in N1; try discriminate N1.
        injection N1 as _ <-. rewrite KV, EI. reflexivity. }
      assert (IE : is_end (info r') = is_end (info r)).
      { destruct HE as [HE1 HE2]. destruct (is_end (info r)) eqn:Q.
        - assert (I1 : info r = InfoType_End) by (destruct (info r); try discriminate Q; reflexivity). rewrite (HE1 I1). reflexivity.
        - destruct (is_end (info r')) eqn:Q'; [|reflexivity].
          assert (I1 : info r' = InfoType_End) by (destruct (info r'); try discriminate Q'; reflexivity).
          rewrite (HE2 I1) in Q. discriminate Q. }
      rewrite IE in NT.
      assert (HS2 : sane s2) by exact (proj1 (next_sane c _ _ _ HS1 N1)).
      pose proof (proj1 (next_sane c _ _ _ HT1 NT)) as HT2.
      assert (EB1 : buffer s1 = pre ++ x ++ post) by exact EB.
      assert (R3 : exists en', runs (next c) (if (3 <=? major v) && is_end (info r)
             then stopped_at (len pre + extent r') t1 else moved_to (len pre + extent r') t1) l2 en' /\ seen_ending en' = seen_ending en).
      { rewrite XR' in HT2 |- *. rewrite XR, HX in NS. subst s2.
        destruct ((3 <=? major v) && is_end (info r));
          (eapply (runs_same_rest c v _ (len pre + len x') (pre ++ x ++ post) (pre ++ x' ++ post) (len pre + len x'));
            [| |rewrite !len_app; lia|rewrite !len_app; lia|lia| |]).
        all: try (unfold stopped_at, moved_to in *; cbn [smbios_version smbios_len_ buffer idx t1 t start] in *; rewrite KV in *; try rewrite KL in *; rewrite ?EB1 in *; eassumption).
        all: rewrite !app_assoc, !drop_app_exact by (rewrite len_app; lia); reflexivity. }
      destruct R3 as [en' [R3 EE]]. exists en'. split; [|exact EE].
      eapply reaches_runs; [exact R1'|]. eapply runs_some; [exact NT|exact R3].
    + rewrite <- (app_nil_r l1'). eapply reaches_runs; [exact R1'|]. apply runs_panic. exact NT.
    + rewrite <- (app_nil_r l1'). eapply reaches_runs; [exact R1'|]. apply runs_ub. exact NT.
Qed.

(* ------------------------------------------------------ tables one after another *)

Lemma runs_reaches {S A} (nx : S -> out (option A * S)) s l s' : runs nx s l (Exhausted s') ->
  exists s1, reaches nx s l s1 /\ nx s1 = Val (None, s').
Proof.
  intros R. remember (Exhausted s') as e eqn:E. revert E. induction R as [s t H|s H|s H|s a s1 l e H R IH]; intros E; try discriminate.
  - injection E as <-. exists s. split; [apply reaches_here|exact H].
  - destruct (IH E) as [s2 [R2 H2]]. exists s2. split; [eapply reaches_on; eassumption|exact H2].
Qed.

Lemma concatenated c v a b l1 s1 l2 e2 : flat_memory c = false ->
  sane (start v (len (a ++ b)) (a ++ b)) ->
  runs (next c) (start v (len a) a) l1 (Exhausted s1) -> idx s1 = len a -> goes_on v l1 ->
  runs (next c) (start v (len b) b) l2 e2 ->
  exists l1', map seen l1' = map seen l1 /\
    runs (next c) (start v (len (a ++ b)) (a ++ b)) (l1' ++ map (further (len a)) l2) (shifted_ending a e2).
Proof.
  intros HF HT R1 EI HG R2.
  assert (HS : sane (start v (len a) a)).
  { destruct HT as [A [B C]]. cbn [start buffer idx] in *. apply all_bytes_app in A. rewrite len_app in C.
    split; [apply A|]. cbn [start buffer idx]. lia. }
  destruct (runs_reaches _ _ _ _ R1) as [s0 [R0 N0]].
  destruct (reaches_sane c _ _ _ R0 HS) as [HS0 _].
  destruct (next_none c s0 s1 HS0 N0) as [-> HL].
  assert (KL : smbios_len_ s0 = len a).
  { assert (G : forall s l s', reaches (next c) s l s' -> sane s -> idx s <= smbios_len_ s ->
      (smbios_len_ s' = smbios_len_ s \/ (idx s' + 4 <= smbios_len_ s \/ exists r, In (Ok (SOther r)) l /\ 3 <= major (smbios_version s) /\ info r = InfoType_End))).
    { clear. intros s l s' R. induction R as [s|s x s1 l s' E R IH]; intros HS HI; [left; reflexivity|].
      destruct (next_sane c _ _ _ HS E) as [HS1 _].
      destruct (next_framing c s x s1 HS E) as [H4 _].
      destruct (next_item c s x s1 HS E) as [[e [_ [_ ->]]]|[r [HR [D ES]]]].
      { destruct (reaches_stopped c _ _ _ R HS1 eq_refl) as [-> ->]. right. left. cbn [stopped_at idx]. lia. }
      destruct ((3 <=? major (smbios_version s)) && is_end (info r)) eqn:EE.
      { right. right. exists r. apply andb_true_iff in EE. destruct EE as [E1 E2]. apply N.leb_le in E1.
        assert (IE : info r = InfoType_End) by (destruct (info r); try discriminate E2; reflexivity).
        split; [left; rewrite (dispatch_end c r IE) in D; congruence|]. split; [exact E1|exact IE]. }
      subst s1. cbn [moved_to smbios_len_ smbios_version idx] in *.
      destruct (N.le_gt_cases (idx s + extent r) (smbios_len_ s)) as [Q|Q].
      - destruct (IH HS1 Q) as [A|[A|[q [A B]]]]; [left; exact A|right; left; exact A|right; right; exists q; split; [right; exact A|exact B]].
      - inversion R as [|? y s2 l2 ? E2 R2]; subst; [left; reflexivity|]. exfalso.
        destruct (next_framing c _ y s2 HS1 E2) as [H5 _]. cbn [moved_to smbios_len_ idx] in H5. lia. }
    destruct (G _ _ _ R0 HS) as [K|[K|[r [K1 [K2 K3]]]]]; [cbn [start idx smbios_len_]; lia|exact K| |].
    - cbn [start smbios_len_] in K. lia.
    - destruct (HG K2 r K1 K3). }
  destruct (reaches_agree c (len a) _ l1 s0 HF R0 (start v (len (a ++ b)) (a ++ b)) HS HT) as [l1' [R' [M _]]].
  - unfold agree. cbn [start smbios_version idx smbios_len_ buffer]. rewrite take_app_exact by reflexivity.
    rewrite take_all by lia. rewrite len_app. repeat split; try reflexivity; lia.
  - exact KL.
  - exact HG.
  - lia.
  - exists l1'. split; [exact M|]. eapply reaches_runs; [exact R'|]. rewrite EI.
    assert (E : moved_to (len a) (start v (len (a ++ b)) (a ++ b)) = shifted a (start v (len b) b)).
    { unfold moved_to, shifted, start. cbn [smbios_version smbios_len_ idx buffer]. rewrite len_app, N.add_0_r. reflexivity. }
    rewrite E. apply runs_shift; [exact R2|]. rewrite <- E. apply sane_moved; [exact HT|].
    destruct HT as [_ [_ C]]. cbn [start buffer] in C. rewrite len_app in C. lia.
Qed.

(* ------------------------------------------------------- a shorter announcement *)

Lemma next_shorter c s n : sane s -> n <= smbios_len_ s ->
  next c (announced n s) = Val (None, announced n s) \/
  (exists l, next c (announced n s) = Val (Some (Err (BadSize (idx s) l)), stopped_at (idx s) s)) \/
  (next c s = Panic /\ next c (announced n s) = Panic) \/
  (next c s = UB /\ next c (announced n s) = UB) \/
  exists x s', next c s = Val (Some x, s') /\
    (next c (announced n s) = Val (Some x, announced n s') /\ smbios_len_ s' = smbios_len_ s \/
     next c (announced n s) = Val (Some x, s') /\ idx s' = smbios_len_ s').
Proof.
  intros HS HN. assert (HT : sane (announced n s)) by exact HS.
  destruct (N.lt_ge_cases n (idx s + 4)) as [H|H]; [left; apply stopped_none; [exact HT|exact H]|]. right.
  pose proof (next_step c s HS) as ST.
  inversion ST as [H1 E|H1 H2 E|H1 H2 E|pre post kind l h0 h1 H1 EB EL H2 E|pre post kind l h0 h1 EB EL H1 H2 H3 E
    |pre post kind l h0 h1 EB EL H1 H2 H3 ND E|pre post kind l h0 h1 x y EB EL H1 H2 H3 ED E|r item F H1 H2 DI E|r F H1 H2 DI E|r F H1 H2 DI E].
  - lia.
  - right. left. split; [reflexivity|]. apply next_iff; [exact HT|]. apply position_past_buffer; assumption.
  - right. right. left. split; [reflexivity|]. apply next_iff; [exact HT|]. apply header_past_buffer; assumption.
  - left. exists l. apply next_iff; [exact HT|].
    apply (length_past_table c (announced n s) pre post kind l h0 h1); try assumption. cbn [announced idx smbios_len_]. lia.
  - destruct (N.le_gt_cases n (idx s + l)) as [Q|Q].
    + left. exists l. apply next_iff; [exact HT|]. apply (length_past_table c (announced n s) pre post kind l h0 h1); assumption.
    + right. left. split; [reflexivity|]. apply next_iff; [exact HT|].
      apply (length_past_buffer c (announced n s) pre post kind l h0 h1); assumption.
  - destruct (N.le_gt_cases n (idx s + l)) as [Q|Q].
    + left. exists l. apply next_iff; [exact HT|]. apply (length_past_table c (announced n s) pre post kind l h0 h1); assumption.
    + right. right. right. do 2 eexists. split; [reflexivity|]. right. split; [|reflexivity]. apply next_iff; [exact HT|].
      apply (strings_not_terminated c (announced n s) pre post kind l h0 h1); assumption.
  - destruct (N.le_gt_cases n (idx s + l)) as [Q|Q].
    + left. exists l. apply next_iff; [exact HT|]. apply (length_past_table c (announced n s) pre post kind l h0 h1); assumption.
    + right. left. split; [reflexivity|]. apply next_iff; [exact HT|].
      apply (length_below_header c (announced n s) pre post kind l h0 h1 x y); assumption.
  - destruct (N.le_gt_cases n (idx s + length_ r)) as [Q|Q].
    + left. destruct F as [pre [post [kind [h0 [h1 [EB [EL _]]]]]]]. exists (length_ r). apply next_iff; [exact HT|].
      apply (length_past_table c (announced n s) pre (data r ++ strings r ++ post) kind (length_ r) h0 h1); assumption.
    + right. right. right. do 2 eexists. split; [reflexivity|].
      assert (NT : next c (announced n s) = Val (Some item, if (3 <=? major (smbios_version s)) && is_end (info r)
        then stopped_at (idx s + extent r) (announced n s) else moved_to (idx s + extent r) (announced n s))).
      { apply next_iff; [exact HT|]. apply (decoded c (announced n s) r item); assumption. }
      rewrite NT. destruct (_ && _); [right|left]; split; reflexivity.
  - destruct (N.le_gt_cases n (idx s + length_ r)) as [Q|Q].
    + left. destruct F as [pre [post [kind [h0 [h1 [EB [EL _]]]]]]]. exists (length_ r). apply next_iff; [exact HT|].
      apply (length_past_table c (announced n s) pre (data r ++ strings r ++ post) kind (length_ r) h0 h1); assumption.
    + right. left. split; [reflexivity|]. apply next_iff; [exact HT|]. apply (decoder_panics c (announced n s) r); assumption.
  - destruct (N.le_gt_cases n (idx s + length_ r)) as [Q|Q].
    + left. destruct F as [pre [post [kind [h0 [h1 [EB [EL _]]]]]]]. exists (length_ r). apply next_iff; [exact HT|].
      apply (length_past_table c (announced n s) pre (data r ++ strings r ++ post) kind (length_ r) h0 h1); assumption.
    + right. right. left. split; [reflexivity|]. apply next_iff; [exact HT|]. apply (decoder_overreads c (announced n s) r); assumption.
Qed.

From Verif Require Import S_Table.

Lemma runs_shorter c s l e : runs (next c) s l e -> forall n l' e', sane s -> n <= smbios_len_ s ->
  runs (next c) (announced n s) l' e' ->
  exists l0 rest, l = l0 ++ rest /\
    ((l' = l0 /\ (finish_of e' = Finished \/ (rest = [] /\ finish_of e' = finish_of e))) \/
     (exists p k, l' = l0 ++ [Err (BadSize p k)] /\ finish_of e' = Finished)).
Proof.
  induction 1 as [s s' H|s H|s H|s a s1 l e H R IH]; intros n l' e' HS HN R'.
  all: destruct (next_shorter c s n HS HN) as [N|[[k N]|[[N0 N]|[[N0 N]|[x [t [N0 N]]]]]]]; try congruence.
  all: try (rewrite (runs_none_inv _ _ _ _ _ N R'), (runs_none_end _ _ _ _ _ N R');
            eexists [], _; split; [reflexivity|]; left; split; [reflexivity|]; left; reflexivity).
  all: try (inversion R'; subst; try congruence; eexists [], _; split; [reflexivity|]; left; split; [reflexivity|]; right; split; reflexivity).
  all: try (inversion R' as [? ? N'|? N'|? N'|? x s2 l2 ? N' R2]; subst; try congruence; rewrite N in N'; injection N' as <- <-;
            assert (NS : next c (stopped_at (idx s) s) = Val (None, stopped_at (idx s) s))
              by (apply stopped_none; [apply sane_stopped; [exact HS|apply HS]|cbn [stopped_at idx smbios_len_]; lia]);
            rewrite (runs_none_inv _ _ _ _ _ NS R2), (runs_none_end _ _ _ _ _ NS R2);
            eexists [], _; split; [reflexivity|]; right; do 2 eexists; split; reflexivity).
  rewrite H in N0. injection N0 as -> ->.
  destruct (next_sane c _ _ _ HS H) as [HS1 _].
  destruct N as [[N EL]|[N EL]].
  - inversion R' as [? ? N'|? N'|? N'|? y s2 l2 ? N' R2]; subst; try congruence. rewrite N in N'. injection N' as <- <-.
    destruct (IH n l2 e' HS1) as [l0 [rest [E K]]]; [lia|exact R2|]. exists (x :: l0), rest. split; [rewrite E; reflexivity|].
    destruct K as [[-> K]|[p [k [-> K]]]]; [left; split; [reflexivity|exact K]|right; exists p, k; split; [reflexivity|exact K]].
  - inversion R' as [? ? N'|? N'|? N'|? y s2 l2 ? N' R2]; subst; try congruence. rewrite N in N'. injection N' as <- <-.
    assert (NS : next c t = Val (None, t)) by (apply stopped_none; [exact HS1|lia]).
    rewrite (runs_none_inv _ _ _ _ _ NS R2), (runs_none_end _ _ _ _ _ NS R2), (runs_none_inv _ _ _ _ _ NS R).
    exists [x], []. split; [reflexivity|]. left. split; [reflexivity|]. left. reflexivity.
Qed.

Lemma reaches_onwards c s l s' : reaches (next c) s l s' -> sane s -> idx s <= idx s'.
Proof.
  induction 1 as [s|s a s1 l s' E R IH]; intros HS; [lia|].
  destruct (next_sane c _ _ _ HS E) as [HS1 _]. specialize (IH HS1).
  destruct (next_item c s a s1 HS E) as [[e [_ [_ ->]]]|[r [_ [_ ->]]]].
  - cbn [stopped_at idx] in IH. exact IH.
  - destruct (_ && _); cbn [stopped_at moved_to idx] in IH; lia.
Qed.

Lemma reaches_snoc {S A} (nx : S -> out (option A * S)) s l s1 i s2 :
  reaches nx s l s1 -> nx s1 = Val (Some i, s2) -> reaches nx s (l ++ [i]) s2.
Proof.
  intros R E. induction R as [s|s a s0 l s1 N R IH]; cbn [app].
  - exact (reaches_on _ _ _ _ _ _ E (reaches_here _ _)).
  - exact (reaches_on _ _ _ _ _ _ N (IH E)).
Qed.

(* what lies before n, and was not the end of the iteration, is kept *)
Lemma reaches_kept c s l s1 : reaches (next c) s l s1 -> forall n, sane s -> n <= smbios_len_ s ->
  idx s1 <= n -> idx s1 + 4 <= smbios_len_ s1 -> reaches (next c) (announced n s) l (announced n s1).
Proof.
  induction 1 as [s|s a s0 l s1 E R IH]; intros n HS HN HI H4; [apply reaches_here|].
  destruct (next_sane c _ _ _ HS E) as [HS0 _]. pose proof (reaches_onwards c _ _ _ R HS0) as HO.
  assert (NS : idx s0 <> smbios_len_ s0).
  { intros Q. destruct (reaches_stopped c s0 l s1 R HS0 Q) as [_ ->]. lia. }
  destruct (next_item c s a s0 HS E) as [[e [_ [_ ->]]]|[r [[F [H1 H2]] [D ES]]]]; [destruct NS; reflexivity|].
  destruct (framed_facts _ _ _ _ F) as [_ [HL [_ [HA _]]]].
  destruct ((3 <=? major (smbios_version s)) && is_end (info r)) eqn:EE; [subst s0; destruct NS; reflexivity|].
  subst s0. cbn [moved_to idx] in HO. unfold extent in HO.
  assert (HT : sane (announced n s)) by exact HS.
  apply (reaches_on _ _ _ (moved_to (idx s + extent r) (announced n s))).
  - apply next_iff; [exact HT|].
    pose proof (decoded c (announced n s) r a F) as K. cbn [announced idx smbios_len_ smbios_version] in K.
    rewrite EE in K. apply K; [lia|lia|exact D].
  - exact (IH n HS0 HN HI H4).
Qed.

Lemma shorter_exactly c s n l1 s1 r : sane s -> n <= smbios_len_ s -> reaches (next c) s l1 s1 -> here s1 r ->
  (idx s1 + length_ r < n -> forall i s2, next c s1 = Val (Some i, s2) ->
     exists t, reaches (next c) (announced n s) (l1 ++ [i]) t /\
       (n < idx s2 + 4 -> runs (next c) (announced n s) (l1 ++ [i]) (Exhausted t))) /\
  (idx s1 + 4 <= n <= idx s1 + length_ r ->
     exists t, runs (next c) (announced n s) (l1 ++ [Err (BadSize (idx s1) (length_ r))]) (Exhausted t)).
Proof.
  intros HS HN R HR. destruct HR as [F [H1 H2]].
  destruct (reaches_sane c s l1 s1 R HS) as [HS1 _].
  destruct (not_stopped c s l1 s1 R HS H1) as [EL [_ _]].
  destruct (framed_facts _ _ _ _ F) as [_ [HL _]].
  assert (HT : sane (announced n s1)) by exact HS1.
  split.
  - intros H i s2 E.
    assert (K : reaches (next c) (announced n s) l1 (announced n s1)) by (apply (reaches_kept c s l1 s1 R n HS HN); lia).
    destruct (next_item c s1 i s2 HS1 E) as [[e [-> [FE _]]]|[r' [[F' _] [D ES]]]].
    { apply next_iff in E; [|exact HS1].
      exfalso. pose proof (decoded c s1 r) as DD. destruct (dispatch c r) as [x| |] eqn:DR.
      - pose proof (step_fun c s1 _ _ E (DD x F H1 H2 eq_refl)) as Q. injection Q as Q _.
        pose proof (fine_dispatch c r e) as FD. subst x. exact (FD DR FE).
      - pose proof (step_fun c s1 _ _ E (decoder_panics c s1 r F H1 H2 DR)) as Q. discriminate Q.
      - pose proof (step_fun c s1 _ _ E (decoder_overreads c s1 r F H1 H2 DR)) as Q. discriminate Q. }
    pose proof (framed_fun _ _ _ _ _ F' F) as ->.
    assert (NT : next c (announced n s1) = Val (Some i, if (3 <=? major (smbios_version s1)) && is_end (info r)
        then stopped_at (idx s1 + extent r) (announced n s1) else moved_to (idx s1 + extent r) (announced n s1))).
    { apply next_iff; [exact HT|]. apply (decoded c (announced n s1) r i); [exact F|cbn [announced idx smbios_len_]; lia|exact H|exact D]. }
    pose proof (reaches_snoc _ _ _ _ _ _ K NT) as KK. eexists. split; [exact KK|].
    intros HE. rewrite <- (app_nil_r (l1 ++ [i])). apply (reaches_runs _ _ _ _ _ _ KK). apply runs_none.
    destruct (next_sane c _ _ _ HT NT) as [HT2 _].
    apply stopped_none; [exact HT2|]. subst s2.
    destruct (_ && _); cbn [stopped_at moved_to announced idx smbios_len_] in *; lia.
  - intros [H3 H4].
    assert (K : reaches (next c) (announced n s) l1 (announced n s1)) by (apply (reaches_kept c s l1 s1 R n HS HN); lia).
    assert (NT : next c (announced n s1) = Val (Some (Err (BadSize (idx s1) (length_ r))), stopped_at (idx s1) s1)).
    { destruct F as [pre [post [kind [h0 [h1 [EB [EP _]]]]]]]. apply next_iff; [exact HT|].
      apply (length_past_table c (announced n s1) pre (data r ++ strings r ++ post) kind (length_ r) h0 h1); assumption. }
    eexists. apply (reaches_runs _ _ _ _ _ _ K). apply (runs_some _ _ _ _ _ _ NT). apply runs_none.
    apply stopped_none; [apply sane_stopped; [exact HS1|apply HS1]|cbn [stopped_at idx smbios_len_]; lia].
Qed.
