(* Turning the clauses of S_Decode into equations. *)
From Coq Require Import ZArith Lia ZifyBool ZifyNat ZifyN.
From Verif Require Import Base G_Enums M_Raw M_BaseBoard Spec S_Enums S_Decode L_Base L_Strings.
Local Open Scope N_scope.
Ltac Zify.zify_post_hook ::= Z.div_mod_to_equations.

(* the decoder on the left-hand side contains the body b as it is *)
Ltac folded b :=
  lazymatch goal with |- (_ /\ ?lhs = _) \/ _ => lazymatch lhs with context [b] => idtac end end.

(* ---------------------------------------------------------------- versions *)

Lemma version_ge_iff v a b : a < 256 -> b < 256 -> (version_ge v (version_of a b) = true <-> from_version v a b).
Proof.
  intros HA HB. unfold version_ge, version_gt, version_le, version_lt, version_eq, from_version, before_version, version_is, version_of.
  cbn [major minor]. unfold cast. rewrite !N.mod_small by (cbn; lia). lia.
Qed.
Lemma version_lt_iff v a b : a < 256 -> b < 256 -> (version_lt v (version_of a b) = true <-> before_version v a b).
Proof.
  intros HA HB. unfold version_ge, version_gt, version_le, version_lt, version_eq, from_version, before_version, version_is, version_of.
  cbn [major minor]. unfold cast. rewrite !N.mod_small by (cbn; lia). lia.
Qed.
Lemma version_gt_iff v a b : a < 256 -> b < 256 -> (version_gt v (version_of a b) = true <-> from_version v a (b + 1)).
Proof.
  intros HA HB. unfold version_ge, version_gt, version_le, version_lt, version_eq, from_version, before_version, version_is, version_of.
  cbn [major minor]. unfold cast. rewrite !N.mod_small by (cbn; lia). lia.
Qed.
Lemma version_eq_iff v a b : a < 256 -> b < 256 -> (version_eq v (version_of a b) = true <-> version_is v a b).
Proof.
  intros HA HB. unfold version_ge, version_gt, version_le, version_lt, version_eq, from_version, before_version, version_is, version_of.
  cbn [major minor]. unfold cast. rewrite !N.mod_small by (cbn; lia). lia.
Qed.
Lemma version_ge_not v a b : a < 256 -> b < 256 -> (version_ge v (version_of a b) = false <-> before_version v a b).
Proof.
  intros HA HB. unfold version_ge, version_gt, version_le, version_lt, version_eq, from_version, before_version, version_is, version_of.
  cbn [major minor]. unfold cast. rewrite !N.mod_small by (cbn; lia). lia.
Qed.
Lemma version_lt_not v a b : a < 256 -> b < 256 -> (version_lt v (version_of a b) = false <-> from_version v a b).
Proof.
  intros HA HB. unfold version_ge, version_gt, version_le, version_lt, version_eq, from_version, before_version, version_is, version_of.
  cbn [major minor]. unfold cast. rewrite !N.mod_small by (cbn; lia). lia.
Qed.
Lemma version_gt_not v a b : a < 256 -> b < 256 -> (version_gt v (version_of a b) = false <-> before_version v a (b + 1)).
Proof.
  intros HA HB. unfold version_ge, version_gt, version_le, version_lt, version_eq, from_version, before_version, version_is, version_of.
  cbn [major minor]. unfold cast. rewrite !N.mod_small by (cbn; lia). lia.
Qed.
Lemma version_eq_not v a b : a < 256 -> b < 256 -> (version_eq v (version_of a b) = false <-> ~ version_is v a b).
Proof.
  intros HA HB. unfold version_ge, version_gt, version_le, version_lt, version_eq, from_version, before_version, version_is, version_of.
  cbn [major minor]. unfold cast. rewrite !N.mod_small by (cbn; lia). lia.
Qed.

(* split on the version tests of the goal *)
Ltac versions :=
  repeat match goal with
  | |- context [version_ge ?v (version_of ?a ?b)] =>
    let E := fresh "V" in destruct (version_ge v (version_of a b)) eqn:E; [apply version_ge_iff in E; [|reflexivity|reflexivity]|apply version_ge_not in E; [|reflexivity|reflexivity]]
  | |- context [version_lt ?v (version_of ?a ?b)] =>
    let E := fresh "V" in destruct (version_lt v (version_of a b)) eqn:E; [apply version_lt_iff in E; [|reflexivity|reflexivity]|apply version_lt_not in E; [|reflexivity|reflexivity]]
  | |- context [version_gt ?v (version_of ?a ?b)] =>
    let E := fresh "V" in destruct (version_gt v (version_of a b)) eqn:E; [apply version_gt_iff in E; [|reflexivity|reflexivity]|apply version_gt_not in E; [|reflexivity|reflexivity]]
  | |- context [version_eq ?v (version_of ?a ?b)] =>
    let E := fresh "V" in destruct (version_eq v (version_of a b)) eqn:E; [apply version_eq_iff in E; [|reflexivity|reflexivity]|apply version_eq_not in E; [|reflexivity|reflexivity]]
  end.
(* arithmetic with version conditions *)
Ltac vlia := unfold reaches, from_version, before_version, version_is in *; lia.

(* ------------------------------------------------------------------ fields *)

Lemma at_take o w n (d : list N) : o + w <= n -> at_ o w (take n d) = at_ o w d.
Proof. intros H. unfold at_. rewrite drop_take, take_take. f_equal. f_equal. lia. Qed.

Lemma at_lt o w (d : list N) : all_bytes d -> at_ o w d < 256 ^ w.
Proof.
  intros H. unfold at_. eapply N.lt_le_trans; [apply le_bound, all_bytes_take, all_bytes_drop, H|].
  apply N.pow_le_mono_r; [discriminate|]. lens. lia.
Qed.

Lemma field_in r off w : 4 <= off -> reaches r off w -> field r off w = Some (at_ (off - 4) w (data r)).
Proof. intros H1 H2. apply field_some. unfold reaches in H2. split; [exact H1|]. split; [exact H2|]. symmetry. apply little_le. Qed.
Lemma field_out r off w : ~ reaches r off w -> field r off w = None.
Proof. intros H2. apply field_none. unfold reaches in H2. lia. Qed.

Lemma field_is_iff r off w v : 4 <= off -> reaches r off w ->
  (field_is r off w v <-> v = at_ (off - 4) w (data r)).
Proof. intros H1 H2. unfold field_is. rewrite field_in by assumption. split; congruence. Qed.

Lemma text_field_iff r off t : 4 <= off -> reaches r off 1 ->
  (text_field r off t <-> find_string r (at_ (off - 4) 1 (data r)) = Ok t).
Proof.
  intros H1 H2. unfold text_field. rewrite find_string_ok. split.
  - intros [k [F T]]. apply field_is_iff in F; try assumption. subst k. exact T.
  - intros T. eexists. split; [apply field_is_iff; [assumption|assumption|reflexivity]|exact T].
Qed.

Lemma bad_text_field_iff r off e : 4 <= off -> reaches r off 1 ->
  (bad_text_field r off e <-> find_string r (at_ (off - 4) 1 (data r)) = Err e).
Proof.
  intros H1 H2. unfold bad_text_field. rewrite find_string_err. split.
  - intros [k [F [T E]]]. apply field_is_iff in F; try assumption. subst k. auto.
  - intros [E T]. eexists. split; [apply field_is_iff; [assumption|assumption|reflexivity]|auto].
Qed.

Lemma code_field_iff {A} r off w codes other (x : A) : 4 <= off -> reaches r off w ->
  (code_field r off w codes other x <-> x = meaning codes other (at_ (off - 4) w (data r))).
Proof.
  intros H1 H2. unfold code_field. split.
  - intros [k [F ->]]. apply field_is_iff in F; try assumption. congruence.
  - intros ->. eexists. split; [apply field_is_iff; [assumption|assumption|reflexivity]|reflexivity].
Qed.

Lemma mapped_field_iff {A} r off w f (x : A) : 4 <= off -> reaches r off w ->
  (mapped_field r off w f x <-> x = f (at_ (off - 4) w (data r))).
Proof.
  intros H1 H2. unfold mapped_field. split.
  - intros [k [F ->]]. apply field_is_iff in F; try assumption. congruence.
  - intros ->. eexists. split; [apply field_is_iff; [assumption|assumption|reflexivity]|reflexivity].
Qed.

(* the mask made of the listed bits *)
Definition mask (named : list N) : N := fold_right (fun i m => N.lor (2 ^ i) m) 0 named.

Lemma mask_testbit named i : N.testbit (mask named) i = existsb (N.eqb i) named.
Proof.
  induction named as [|j l IH]; cbn [mask fold_right existsb]; [apply N.bits_0|].
  rewrite N.lor_spec. fold (mask l). rewrite IH. f_equal. rewrite N.pow2_bits_eqb. apply N.eqb_sym.
Qed.

Lemma named_bits_iff named k x : named_bits named k x <-> x = N.land k (mask named).
Proof.
  unfold named_bits. split.
  - intros H. apply N.bits_inj. intros i. rewrite N.land_spec, mask_testbit. apply H.
  - intros -> i. rewrite N.land_spec, mask_testbit. reflexivity.
Qed.

Lemma flags_field_iff r off w named x : 4 <= off -> reaches r off w ->
  (flags_field r off w named x <-> x = N.land (at_ (off - 4) w (data r)) (mask named)).
Proof.
  intros H1 H2. unfold flags_field. split.
  - intros [k [F B]]. apply field_is_iff in F; try assumption. apply named_bits_iff in B. congruence.
  - intros ->. eexists. split; [apply field_is_iff; [assumption|assumption|reflexivity]|apply named_bits_iff; reflexivity].
Qed.

Lemma when_true {A} (c : Prop) (P : A -> Prop) o : c -> (when c P o <-> exists x, o = Some x /\ P x).
Proof. unfold when. tauto. Qed.
Lemma when_false {A} (c : Prop) (P : A -> Prop) o : ~ c -> (when c P o <-> o = None).
Proof. unfold when. tauto. Qed.

(* ---------------------------------------------------------------- read_packed *)

Lemma read_packed_in c n r : n <= len (data r) -> read_packed c n r = Val (take n (data r)).
Proof. intros H. unfold read_packed. destruct (N.leb_spec n (len (data r))); [reflexivity|lia]. Qed.

Lemma find_string_stretched r k : find_string (stretched r) k = find_string r k.
Proof. reflexivity. Qed.

Lemma read_packed_flat c n r : flat_memory c = true -> n <= len (data r) + len (after r) ->
  read_packed c n r = read_packed c n (stretched r).
Proof.
  intros H H2. rewrite (read_packed_in c n (stretched r)) by (cbn [stretched data]; lens; lia).
  unfold read_packed. rewrite H. cbn [andb stretched data].
  destruct (N.leb_spec n (len (data r))).
  - rewrite take_app_le by lia. reflexivity.
  - destruct (N.leb_spec n (len (data r ++ after r))) as [L|L]; [reflexivity|]. rewrite len_app in L. lia.
Qed.

Lemma read_packed_readable c n r b : readable c n r b ->
  read_packed c n r = Val (take n (data b)) /\ n <= len (data b) /\ version b = version r /\
  (forall k, find_string r k = find_string b k).
Proof.
  intros [[H ->]|[[H1 H2] [H3 ->]]].
  - rewrite read_packed_in by assumption. auto.
  - rewrite read_packed_flat, read_packed_in by (try assumption; cbn [stretched data]; lens; lia).
    repeat split. cbn [stretched data]. lens. lia.
Qed.

(* ---------------------------------------------------------------- failures *)

Lemma first_bad_ok r off os e t : 4 <= off -> reaches r off 1 ->
  find_string r (at_ (off - 4) 1 (data r)) = Ok t ->
  (first_bad_text r (off :: os) e <-> first_bad_text r os e).
Proof.
  intros H1 H2 F. cbn [first_bad_text]. rewrite bad_text_field_iff, F by assumption.
  split; [intros [H|[_ H]]; [discriminate|exact H]|]. intros H. right. split; [|exact H].
  exists t. apply text_field_iff; assumption.
Qed.
Lemma first_bad_err r off os e e' : 4 <= off -> reaches r off 1 ->
  find_string r (at_ (off - 4) 1 (data r)) = Err e' ->
  (first_bad_text r (off :: os) e <-> e = e').
Proof.
  intros H1 H2 F. cbn [first_bad_text]. rewrite bad_text_field_iff, F by assumption.
  split; [intros [H|[[t H] _]]; [congruence|]|intros ->; auto].
  apply text_field_iff in H; try assumption. congruence.
Qed.

Lemma first_failure_num r off w ns e v : field r off w = Some v ->
  (first_failure r (Num off w :: ns) e <-> first_failure r ns e).
Proof.
  intros F. cbn [first_failure need_fails need_met]. unfold field_is. rewrite F.
  split; [intros [[H _]|[_ H]]; [discriminate|exact H]|]. intros H. right. eauto.
Qed.
Lemma first_failure_num_none r off w ns e : field r off w = None ->
  (first_failure r (Num off w :: ns) e <-> e = InvalidSlice).
Proof.
  intros F. cbn [first_failure need_fails need_met]. unfold field_is. rewrite F.
  split; [intros [[_ H]|[[v H] _]]; [exact H|discriminate]|]. auto.
Qed.
Lemma first_failure_text r off ns e k t : field r off 1 = Some k -> find_string r k = Ok t ->
  (first_failure r (Text off :: ns) e <-> first_failure r ns e).
Proof.
  intros F S. cbn [first_failure need_fails need_met]. apply find_string_ok in S.
  split.
  - intros [[[H _]|[k' [H [T _]]]]|[_ H]]; [congruence| |exact H].
    unfold field_is in H. assert (k' = k) as -> by congruence. exfalso. eapply T; eauto.
  - intros H. right. split; [exists t, k; auto|exact H].
Qed.
Lemma first_failure_text_err r off ns e k e' : field r off 1 = Some k -> find_string r k = Err e' ->
  (first_failure r (Text off :: ns) e <-> e = e').
Proof.
  intros F S. cbn [first_failure need_fails need_met]. apply find_string_err in S. destruct S as [-> S].
  split.
  - intros [[[H _]|[k' [H [T ->]]]]|[[t [k' [H T]]] _]]; [congruence| |].
    + unfold field_is in H. congruence.
    + unfold field_is in H. assert (k' = k) as -> by congruence. exfalso. eapply S; eauto.
  - intros ->. left. right. exists k. auto.
Qed.
Lemma first_failure_text_none r off ns e : field r off 1 = None ->
  (first_failure r (Text off :: ns) e <-> e = InvalidSlice).
Proof.
  intros F. cbn [first_failure need_fails need_met]. unfold bad_text_field, text_field, field_is. rewrite F.
  split; [intros [[[_ H]|[k [H _]]]|[[t [k [H _]]] _]]; try discriminate; exact H|]. auto.
Qed.

(* ----------------------------------------------------------------- tactics *)

Lemma since_iff v a b : since v a b = true <-> from_version v a b.
Proof. unfold since, from_version. lia. Qed.
Lemma since_not v a b : since v a b = false <-> before_version v a b.
Proof. unfold since, before_version. lia. Qed.

(* split on the version tests of the specification *)
Ltac sinces :=
  repeat match goal with
  | |- context [since ?v ?a ?b] =>
    let E := fresh "V" in destruct (since v a b) eqn:E; [apply since_iff in E|apply since_not in E]
  | H : context [since ?v ?a ?b] |- _ =>
    let E := fresh "V" in destruct (since v a b) eqn:E; [apply since_iff in E|apply since_not in E]
  end.

(* one clause of a specification, with the bytes of the field in the area, as an equation *)
Ltac clause_in H :=
  match type of H with
  | field_is _ _ _ _ => apply field_is_iff in H; [|vlia|vlia]
  | text_field _ _ _ => apply text_field_iff in H; [|vlia|vlia]
  | code_field _ _ _ _ _ _ => apply code_field_iff in H; [|vlia|vlia]
  | flags_field _ _ _ _ _ => apply flags_field_iff in H; [|vlia|vlia]
  | mapped_field _ _ _ _ _ => apply mapped_field_iff in H; [|vlia|vlia]
  | when _ _ _ => first [apply when_true in H; [|vlia]; let x := fresh "x" in let E := fresh "E" in destruct H as [x [E H]]; clause_in H
                        |apply when_false in H; [|vlia]]
  | _ /\ _ => let H2 := fresh "H" in destruct H as [H H2]; clause_in H; clause_in H2
  | _ => idtac
  end.
Ltac clauses := repeat match goal with
  | H : field_is _ _ _ _ |- _ => clause_in H
  | H : text_field _ _ _ |- _ => clause_in H
  | H : code_field _ _ _ _ _ _ |- _ => clause_in H
  | H : flags_field _ _ _ _ _ |- _ => clause_in H
  | H : mapped_field _ _ _ _ _ |- _ => clause_in H
  | H : when _ _ _ |- _ => clause_in H
  end.
Ltac prove_clause :=
  cbn; lazymatch goal with
  | |- field_is _ _ _ _ => apply field_is_iff; [vlia|vlia|reflexivity]
  | |- text_field _ _ _ => apply text_field_iff; [vlia|vlia|assumption]
  | |- code_field _ _ _ _ _ _ => apply code_field_iff; [vlia|vlia|]
  | |- flags_field _ _ _ _ _ => apply flags_field_iff; [vlia|vlia|reflexivity]
  | |- mapped_field _ _ _ _ _ => apply mapped_field_iff; [vlia|vlia|]
  | |- when _ _ None => apply when_false; [vlia|reflexivity]
  | |- when _ _ (Some _) => apply when_true; [vlia|eexists; split; [reflexivity|prove_clause]]
  | |- _ /\ _ => split; prove_clause
  | |- _ => cbn; try reflexivity
  end.
(* split on the string lookups of the goal *)
Ltac finds := repeat match goal with
  | |- context [find_string ?r ?k] =>
    let E := fresh "F" in destruct (find_string r k) eqn:E; cbn [obind rbind rmap ok some_if]
  end.

Arguments at_ : simpl never.
Arguments find_string : simpl never.
Arguments field_is : simpl never.
Arguments text_field : simpl never.
Arguments code_field : simpl never.
Arguments flags_field : simpl never.
Arguments mapped_field : simpl never.
Arguments when : simpl never.
Arguments meaning : simpl never.
Arguments from_version : simpl never.
Arguments before_version : simpl never.
Arguments reaches : simpl never.
Arguments field : simpl never.
Arguments mask : simpl never.
Arguments N.land : simpl never.

(* compute the differences of numerals *)
Ltac subs := repeat match goal with
  | H : context [N.sub (N.pos ?a) (N.pos ?b)] |- _ =>
    let v := eval vm_compute in (N.sub (N.pos a) (N.pos b)) in change (N.sub (N.pos a) (N.pos b)) with v in H
  | |- context [N.sub (N.pos ?a) (N.pos ?b)] =>
    let v := eval vm_compute in (N.sub (N.pos a) (N.pos b)) in change (N.sub (N.pos a) (N.pos b)) with v
  end.
Ltac masks := repeat match goal with
  | H : context [mask ?l] |- _ => let v := eval vm_compute in (mask l) in change (mask l) with v in H
  | |- context [mask ?l] => let v := eval vm_compute in (mask l) in change (mask l) with v
  end.

(* "the decoder returns s" <-> "s is as the specification says", once the reads
   have been resolved *)
Ltac says_fwd := finds; let H := fresh "H" in intros H; first [discriminate H|injection H as <-; constructor; prove_clause].
Ltac says_bwd :=
  let H := fresh "H" in intros H; destruct H; cbn in *; clauses; subs; masks; subst;
  repeat match goal with F : find_string _ _ = Ok _ |- _ => rewrite F; clear F; cbn [rbind] end.

(* "the decoder fails with e" <-> "e is the error of the first bad text field" *)
Ltac fails :=
  repeat match goal with
  | |- context [find_string ?r ?k] =>
    let F := fresh "F" in
    destruct (find_string r k) eqn:F; cbn [obind rbind rmap ok some_if];
    [rewrite first_bad_ok by (first [exact F|vlia])|rewrite first_bad_err by (first [exact F|vlia])]
  end;
  cbn [first_bad_text]; split; intros; first [discriminate|contradiction|congruence].

(* --------------------------------------------- decoders that use get *)

Lemma get_ok_field c w off r : 0 < w -> 4 <= off -> off - 4 + w < 2 ^ 32 -> get_ok c w off r = Val (field r off w).
Proof. intros H1 H2 H3. unfold get_ok. rewrite get_field by assumption. destruct (field r off w); reflexivity. Qed.

Lemma get_string_field c off r : 4 <= off -> off < 2 ^ 31 ->
  get_string c off r = match field r off 1 with Some k => Val (find_string r k) | None => Val (Err InvalidSlice) end.
Proof.
  intros H1 H2. unfold get_string. rewrite get_field by (first [lia|change (2 ^ 32) with 4294967296; lia]).
  destruct (field r off 1); reflexivity.
Qed.

Lemma text_field_found r off k t : field r off 1 = Some k -> (text_field r off t <-> find_string r k = Ok t).
Proof.
  intros F. unfold text_field, field_is. rewrite F, find_string_ok. split; [intros [k' [[= <-] H]]; exact H|eauto].
Qed.
Lemma no_text_field r off : field r off 1 = None -> forall t, ~ text_field r off t.
Proof. intros F t [k [H _]]. unfold field_is in H. congruence. Qed.

Lemma text_if_there_iff r off o : text_if_there r off o <->
  o = match field r off 1 with Some k => ok (find_string r k) | None => None end.
Proof.
  unfold text_if_there. destruct (field r off 1) as [k|] eqn:F.
  - destruct (find_string r k) as [t|e] eqn:S.
    + split; [|intros ->; left; exists t; split; [apply (text_field_found r off k t F), S|reflexivity]].
      intros [[t' [T ->]]|[T _]].
      * apply (text_field_found r off k t' F) in T. rewrite S in T. injection T as ->. reflexivity.
      * exfalso. apply (T t). apply (text_field_found r off k t F), S.
    + split; [|intros ->; right; split; [|reflexivity]].
      * intros [[t' [T ->]]|[_ ->]]; [|reflexivity]. apply (text_field_found r off k t' F) in T. congruence.
      * intros t T. apply (text_field_found r off k t F) in T. congruence.
  - split; [intros [[t [T _]]|[_ ->]]; [|reflexivity]|intros ->; right; split; [|reflexivity]].
    + destruct (no_text_field r off F t T).
    + apply no_text_field, F.
Qed.

Lemma if_there_but_iff r off w u o : if_there_but r off w u o <-> o = ofilter (fun x => negb (x =? u)) (field r off w).
Proof.
  unfold if_there_but, field_is. destruct (field r off w) as [k|]; cbn [ofilter].
  - destruct (N.eqb_spec k u) as [->|E]; cbn [negb].
    + split; [intros [[k [[= <-] [H _]]]|[_ ->]]; [contradiction|reflexivity]|intros ->; auto].
    + split; [intros [[k' [[= <-] [_ ->]]]|[[H|H] _]]; [reflexivity|discriminate|congruence]|intros ->; left; eauto].
  - split; [intros [[k [H _]]|[_ ->]]; [discriminate|reflexivity]|intros ->; auto].
Qed.

Lemma bytes_at_iff r off n l : 4 <= off -> (bytes_at r off n l <-> reaches r off n /\ l = take n (drop (off - 4) (data r))).
Proof.
  intros H4. unfold bytes_at, reaches. split.
  - intros [pre [post [E [H1 H2]]]]. rewrite E. split; [lens; lia|].
    rewrite drop_app_exact by lia. rewrite take_app_exact by lia. reflexivity.
  - intros [H ->]. exists (take (off - 4) (data r)), (drop n (drop (off - 4) (data r))).
    rewrite take_drop, take_drop. split; [reflexivity|]. split; lens; lia.
Qed.

Lemma bytes_if_there_iff r off n o : 4 <= off ->
  (bytes_if_there r off n o <-> o = if off + n <=? 4 + len (data r) then Some (take n (drop (off - 4) (data r))) else None).
Proof.
  intros H. unfold bytes_if_there, reaches. destruct (N.leb_spec (off + n) (4 + len (data r))).
  - split.
    + intros [[l [B ->]]|[B _]]; [|contradiction]. apply bytes_at_iff in B; [|exact H]. destruct B as [_ ->]. reflexivity.
    + intros ->. left. eexists. split; [|reflexivity]. apply bytes_at_iff; [exact H|]. unfold reaches. auto.
  - split.
    + intros [[l [B ->]]|[_ ->]]; [|reflexivity]. apply bytes_at_iff in B; [|exact H]. destruct B as [B _]. unfold reaches in B. lia.
    + intros ->. right. split; [lia|reflexivity].
Qed.

Lemma field_lt r off w v : all_bytes (data r) -> field r off w = Some v -> v < 256 ^ w.
Proof.
  intros HB F. apply field_some in F. destruct F as [_ [_ ->]].
  replace (little (take w (drop (off - 4) (data r)))) with (at_ (off - 4) w (data r)) by (symmetry; apply little_le).
  apply at_lt, HB.
Qed.

Ltac get_side := first [lia|reflexivity|change (2 ^ 32) with 4294967296; lia].
Lemma obind_val {A B} (a : A) (k : A -> out B) : obind (Val a) k = k a.
Proof. reflexivity. Qed.
Lemma rbind_ok {A B} (a : A) (k : A -> out (res B)) : rbind (Val (Ok a)) k = k a.
Proof. reflexivity. Qed.
Lemma rbind_err {A B} e (k : A -> out (res B)) : rbind (Val (Err e)) k = Val (Err e).
Proof. reflexivity. Qed.
(* resolve the accesses *)
Ltac gets :=
  repeat match goal with
  | |- context [get_ok ?c ?w ?o ?r] => rewrite (get_ok_field c w o r) by get_side
  | |- context [get_string_ok ?c ?o ?r] => unfold get_string_ok
  | |- context [get_string ?c ?o ?r] => rewrite (get_string_field c o r) by get_side
  | |- context [get ?c ?w ?o ?r] => rewrite (get_field c w o r) by get_side
  | |- context [get_slice ?c ?o ?n ?r] => rewrite (get_slice_field c o n r) by get_side
  end; rewrite ?obind_val.
(* split on the next access that decides how the decoder goes on *)
Ltac get_split X :=
  lazymatch X with
  | match field ?r ?o ?w with Some _ => _ | None => _ end => let F := fresh "F" in destruct (field r o w) eqn:F
  | Val (match field ?r ?o ?w with Some _ => _ | None => _ end) => let F := fresh "F" in destruct (field r o w) eqn:F
  | Val (find_string ?r ?k) => let F := fresh "F" in destruct (find_string r k) eqn:F
  end.
Ltac get_step :=
  rewrite ?obind_val, ?rbind_ok, ?rbind_err;
  lazymatch goal with
  | |- rbind ?X _ = _ -> _ => get_split X
  | |- rbind ?X _ = _ <-> _ => get_split X
  | |- rbind ?X _ = _ => get_split X
  | |- exists o, rbind ?X _ = _ => get_split X
  end; rewrite ?obind_val, ?rbind_ok, ?rbind_err.

Lemma code_field_found {A} r off w codes other (x : A) k : field r off w = Some k ->
  (code_field r off w codes other x <-> x = meaning codes other k).
Proof. intros F. unfold code_field, field_is. rewrite F. split; [intros [k' [[= <-] ->]]; reflexivity|eauto]. Qed.
Lemma code_field_missing {A} r off w codes other (x : A) : field r off w = None -> ~ code_field r off w codes other x.
Proof. intros F [k [H _]]. unfold field_is in H. congruence. Qed.
Lemma mapped_field_found {A} r off w f (x : A) k : field r off w = Some k ->
  (mapped_field r off w f x <-> x = f k).
Proof. intros F. unfold mapped_field, field_is. rewrite F. split; [intros [k' [[= <-] ->]]; reflexivity|eauto]. Qed.
Lemma mapped_field_missing {A} r off w f (x : A) : field r off w = None -> ~ mapped_field r off w f x.
Proof. intros F [k [H _]]. unfold field_is in H. congruence. Qed.
Lemma flags_field_found r off w named x k : field r off w = Some k ->
  (flags_field r off w named x <-> x = N.land k (mask named)).
Proof.
  intros F. unfold flags_field, field_is. rewrite F. split.
  - intros [k' [[= <-] H]]. apply named_bits_iff, H.
  - intros ->. eexists. split; [reflexivity|]. apply named_bits_iff. reflexivity.
Qed.

Lemma length_ok_not r i rule e : length_error r i rule e -> ~ length_ok r rule.
Proof. destruct rule; cbn; [tauto| |]; intros [H _]; [tauto|lia]. Qed.
