(* Proofs about EntryPoint::search. *)
From Coq Require Import ZArith Lia ZifyBool ZifyNat ZifyN.
From Verif Require Import Base G_Enums M_Raw M_Entry Spec L_Base S_Entry.
Local Open Scope N_scope.
Ltac Zify.zify_post_hook ::= Z.div_mod_to_equations.

Lemma starts_with_spec l p : starts_with l p = true <-> exists r, l = p ++ r.
Proof.
  revert l; induction p as [|b p IH]; intros l; cbn [starts_with app].
  - split; [eauto|destruct l; reflexivity].
  - destruct l as [|a l]; cbn [starts_with].
    + split; [discriminate|intros [r E]; discriminate].
    + rewrite andb_true_iff, N.eqb_eq, IH. split.
      * intros [-> [r ->]]. eauto.
      * intros [r [= -> ->]]. eauto.
Qed.

Lemma starts_with_take n l p : len p <= n -> starts_with (take n l) p = starts_with l p.
Proof.
  intros Hn. apply eq_true_iff_eq. rewrite !starts_with_spec. split.
  - intros [r E]. exists (r ++ drop n l). rewrite app_assoc, <- E. symmetry; apply take_drop.
  - intros [r ->]. rewrite take_app_ge by lia. eauto.
Qed.

(* the loop over chunks, on the buffer itself *)
Fixpoint find_para (fuel : nat) (idx : N) (b : list N) : option (EntryPointFormat * N) :=
  match fuel with
  | O => None
  | S f =>
    match b with
    | [] => None
    | _ :: _ =>
      if starts_with b V2_SIG then Some (FmtV2, idx * 16)
      else if starts_with b V3_SIG then Some (FmtV3, idx * 16)
      else find_para f (idx + 1) (drop 16 b)
    end
  end.

Lemma find_loop_para fuel idx b :
  find_signature_loop idx (chunks_fuel fuel 16 b) = find_para fuel idx b.
Proof.
  revert idx b; induction fuel as [|f IH]; intros idx b; [reflexivity|].
  cbn [chunks_fuel find_para]. destruct b as [|x b]; [reflexivity|].
  cbn [find_signature_loop]. rewrite !starts_with_take by (vm_compute; discriminate).
  rewrite IH. reflexivity.
Qed.

Lemma anchor_at_0 b k : anchor_at b 0 k <-> exists rest, b = anchor_string k ++ rest.
Proof. unfold anchor_at. rewrite drop_0. split; [intros [_ H]; exact H|auto]. Qed.

Lemma anchor_at_drop b o k : anchor_at (drop 16 b) o k <-> anchor_at b (o + 16) k.
Proof. unfold anchor_at. rewrite drop_drop. replace ((o + 16) mod 16) with (o mod 16) by lia. reflexivity. Qed.

Lemma anchor_kind b o k1 k2 : anchor_at b o k1 -> anchor_at b o k2 -> k1 = k2.
Proof.
  intros [_ [r1 E1]] [_ [r2 E2]]. rewrite E1 in E2.
  destruct k1, k2; cbn in E2; try reflexivity; discriminate.
Qed.

Lemma find_para_spec fuel b idx : len b <= N.of_nat fuel ->
  match find_para fuel idx b with
  | None => forall o k, ~ anchor_at b o k
  | Some (k, o) => exists o', o = idx * 16 + o' /\ first_anchor b o' k
  end.
Proof.
  revert idx b; induction fuel as [|f IH]; intros idx b Hf.
  - assert (b = []) as -> by (apply len_0; lia). cbn [find_para].
    intros o k [_ [r E]]. rewrite drop_all in E by (lens; lia). destruct k; discriminate.
  - cbn [find_para]. destruct b as [|x b].
    + intros o k [_ [r E]]. rewrite drop_all in E by (lens; lia). destruct k; discriminate.
    + remember (x :: b) as l eqn:El.
      destruct (starts_with l V2_SIG) eqn:E2.
      { exists 0. split; [lia|]. split; [|intros; lia].
        apply anchor_at_0. apply starts_with_spec in E2. exact E2. }
      destruct (starts_with l V3_SIG) eqn:E3.
      { exists 0. split; [lia|]. split; [|intros; lia].
        apply anchor_at_0. apply starts_with_spec in E3. exact E3. }
      assert (N0 : forall k, ~ anchor_at l 0 k).
      { intros k H. apply anchor_at_0 in H. destruct k.
        - apply (starts_with_spec l V2_SIG) in H. congruence.
        - apply (starts_with_spec l V3_SIG) in H. congruence. }
      specialize (IH (idx + 1) (drop 16 l)).
      assert (Hd : len (drop 16 l) <= N.of_nat f).
      { rewrite len_drop. subst l. rewrite len_cons in *. lia. }
      specialize (IH Hd).
      assert (Hstep : forall o k, anchor_at l o k -> 16 <= o /\ anchor_at (drop 16 l) (o - 16) k).
      { intros o k H. assert (o <> 0) by (intros ->; apply (N0 k H)).
        assert (16 <= o) by (destruct H as [H _]; lia).
        split; [assumption|]. apply anchor_at_drop. replace (o - 16 + 16) with o by lia. exact H. }
      destruct (find_para f (idx + 1) (drop 16 l)) as [[k o]|].
      * destruct IH as [o' [-> [Ha Hf']]]. exists (o' + 16). split; [lia|]. split.
        -- apply anchor_at_drop, Ha.
        -- intros o1 k1 Ho H1. destruct (Hstep _ _ H1) as [H16 H2]. apply (Hf' (o1 - 16) k1); [lia|exact H2].
      * intros o k H. destruct (Hstep _ _ H) as [_ H2]. exact (IH _ _ H2).
Qed.

Lemma find_signature_spec b :
  match find_signature b with
  | None => forall o k, ~ anchor_at b o k
  | Some (k, o) => first_anchor b o k
  end.
Proof.
  unfold find_signature, chunks, STRIDE. rewrite find_loop_para.
  pose proof (find_para_spec (length b) b 0 (N.le_refl _)) as H.
  destruct (find_para _ _ _) as [[k o]|]; [|exact H].
  destruct H as [o' [-> H]]. rewrite N.mul_0_l, N.add_0_l. exact H.
Qed.

Lemma first_anchor_fun b o1 k1 o2 k2 :
  first_anchor b o1 k1 -> first_anchor b o2 k2 -> o1 = o2 /\ k1 = k2.
Proof.
  intros [H1 F1] [H2 F2].
  assert (o1 = o2) as ->.
  { destruct (N.lt_trichotomy o1 o2) as [H|[H|H]]; [|exact H|].
    - exfalso; eapply F2; eauto.
    - exfalso; eapply F1; eauto. }
  split; [reflexivity|]. eapply anchor_kind; eauto.
Qed.

Lemma find_signature_first b o k : first_anchor b o k <-> find_signature b = Some (k, o).
Proof.
  pose proof (find_signature_spec b) as S. destruct (find_signature b) as [[k' o']|].
  - split.
    + intros H. destruct (first_anchor_fun _ _ _ _ _ S H) as [-> ->]. reflexivity.
    + intros [= -> ->]. exact S.
  - split; [intros [H _]; exfalso; eapply S; eauto | discriminate].
Qed.

Lemma fold_sum l : forall a, fold_left (fun s v => (s + v) mod 256) l (a mod 256) = (a + total l) mod 256.
Proof.
  induction l as [|x l IH]; intros a; cbn [fold_left total fold_right].
  - f_equal. lia.
  - rewrite N.add_mod_idemp_l by discriminate. rewrite IH. unfold total. f_equal. lia.
Qed.

Lemma wrapping_sum_total l : wrapping_sum l = total l mod 256.
Proof.
  unfold wrapping_sum. change 0 with (0 mod 256) at 1. rewrite fold_sum. f_equal.
Qed.

(* what search does once the anchor has been found *)
Definition parse_at (k : EntryPointFormat) (b : list N) : out (result InvalidEntryPointError EntryPoint) :=
  match k with
  | FmtV2 =>
    if negb (size_of_v2 <=? len b) then Val (Err (EpBadSize (cast 8 (len b)))) else
    let! p := read_struct size_of_v2 b in
    let entry_point := v2_of_bytes p in
    if negb (size_of_v2 <=? v2_len entry_point) then Val (Err (EpBadSize (v2_len entry_point))) else
    Val (Ok (V2 entry_point))
  | FmtV3 =>
    if negb (size_of_v3 <=? len b) then Val (Err (EpBadSize (cast 8 (len b)))) else
    let! p := read_struct size_of_v3 b in
    let entry_point := v3_of_bytes p in
    if negb (size_of_v3 <=? v3_len entry_point) then Val (Err (EpBadSize (v3_len entry_point))) else
    Val (Ok (V3 entry_point))
  end.
Definition search_at (k : EntryPointFormat) (b : list N) : out (result InvalidEntryPointError EntryPoint) :=
  let? entry_point := parse_at k b in
  if negb (2 <=? ep_major entry_point) then Val (Err (TooOldVersion (ep_major entry_point))) else
  if negb (ep_len entry_point <=? cast 8 (len b)) then Val (Err (EpBadSize (cast 8 (len b)))) else
  let! body := slice_index b 0 (ep_len entry_point) in
  let sum := wrapping_sum body in
  if negb (sum =? 0) then Val (Err (BadChecksum sum)) else
  Val (Ok entry_point).

Lemma search_anchor b o k : first_anchor b o k -> search b = search_at k (drop o b).
Proof.
  intros H. pose proof H as [[_ [r E]] _]. apply find_signature_first in H.
  unfold search. rewrite H.
  assert (o <= len b).
  { destruct (N.le_gt_cases o (len b)); [assumption|]. rewrite drop_all in E by lia. destruct k; discriminate. }
  unfold slice_index_from, slice_get_from. destruct (N.leb_spec o (len b)); [|lia].
  reflexivity.
Qed.

Lemma search_no_anchor b : (forall o k, ~ anchor_at b o k) <-> search b = Val (Err NotFound).
Proof.
  split.
  - intros H. pose proof (find_signature_spec b) as S. unfold search.
    destruct (find_signature b) as [[k o]|]; [|reflexivity]. destruct S as [S _]. exfalso; eapply H; eauto.
  - intros H. pose proof (find_signature_spec b) as S.
    destruct (find_signature b) as [[k o]|] eqn:E; [|exact S]. exfalso.
    rewrite (search_anchor _ _ _ S) in H. unfold search_at, parse_at, read_struct, slice_index in H.
    destruct k; cbn [rbind obind] in H;
      repeat match type of H with context[if ?x then _ else _] => destruct x; cbn [rbind obind negb] in H end;
      repeat match type of H with context[match ?x with _ => _ end] => destruct x; cbn [rbind obind negb] in H end;
      discriminate.
Qed.

Lemma at_value o w n b : o + w <= n -> at_ o w (take n b) = value_at b o w.
Proof. intros H. unfold at_, value_at. rewrite take_drop_take by lia. symmetry. apply little_le. Qed.

Lemma v2_describes b : describes b (V2 (v2_of_bytes (take 31 b))).
Proof.
  cbn [describes v2_of_bytes v2_signature v2_checksum v2_len v2_major v2_minor v2_struct_max v2_revision
       v2_formatted v2_dmi_signature v2_dmi_checksum v2_smbios_len v2_smbios_address v2_smbios_count
       v2_bcd_revision].
  repeat split; first [apply at_value; lia | apply take_drop_take; lia].
Qed.
Lemma v3_describes b : describes b (V3 (v3_of_bytes (take 24 b))).
Proof.
  cbn [describes v3_of_bytes v3_signature v3_checksum v3_len v3_major v3_minor v3_docrev v3_revision
       v3_reserved v3_smbios_len_max v3_smbios_address].
  repeat split; first [apply at_value; lia | idtac].
  rewrite take_take. reflexivity.
Qed.

Lemma describes_fun b e1 e2 : kind_of e1 = kind_of e2 -> describes b e1 -> describes b e2 -> e1 = e2.
Proof.
  destruct e1 as [[]|[]], e2 as [[]|[]]; cbn; try discriminate; intros _ H1 H2; decompose [and] H1;
    decompose [and] H2; subst; reflexivity.
Qed.

Lemma describes_len b e : describes b e -> ep_len e = declared_length (kind_of e) b.
Proof. destruct e; cbn; tauto. Qed.
Lemma describes_major b e : describes b e -> ep_major e = declared_major (kind_of e) b.
Proof. destruct e; cbn; tauto. Qed.

Definition parse_of (k : EntryPointFormat) (b : list N) : EntryPoint :=
  match k with FmtV2 => V2 (v2_of_bytes (take 31 b)) | FmtV3 => V3 (v3_of_bytes (take 24 b)) end.
Lemma parse_kind k b : kind_of (parse_of k b) = k.
Proof. destruct k; reflexivity. Qed.
Lemma parse_describes k b : describes b (parse_of k b).
Proof. destruct k; [apply v2_describes|apply v3_describes]. Qed.

(* search_at with the two kinds merged *)
Lemma search_at_eq k b : search_at k b =
  if len b <? layout_size k then Val (Err (EpBadSize (len b mod 256)))
  else if declared_length k b <? layout_size k then Val (Err (EpBadSize (declared_length k b)))
  else if declared_major k b <? 2 then Val (Err (TooOldVersion (declared_major k b)))
  else if len b mod 256 <? declared_length k b then Val (Err (EpBadSize (len b mod 256)))
  else if total (take (declared_length k b) b) mod 256 =? 0 then Val (Ok (parse_of k b))
  else Val (Err (BadChecksum (total (take (declared_length k b) b) mod 256))).
Proof.
  unfold search_at.
  assert (Hpre : parse_at k b =
    if len b <? layout_size k then Val (Err (EpBadSize (len b mod 256)))
    else if declared_length k b <? layout_size k then Val (Err (EpBadSize (declared_length k b)))
    else Val (Ok (parse_of k b))).
  { pose proof (describes_len b _ (parse_describes k b)) as HL. rewrite parse_kind in HL.
    unfold parse_at, size_of_v2, size_of_v3, read_struct, cast. change (2 ^ 8) with 256. destruct k; cbn [layout_size parse_of ep_len] in *.
    - destruct (N.leb_spec 31 (len b)); destruct (N.ltb_spec (len b) 31); try lia; cbn [negb obind]; [|reflexivity].
      rewrite HL. destruct (N.leb_spec 31 (declared_length FmtV2 b));
        destruct (N.ltb_spec (declared_length FmtV2 b) 31); try lia; reflexivity.
    - destruct (N.leb_spec 24 (len b)); destruct (N.ltb_spec (len b) 24); try lia; cbn [negb obind]; [|reflexivity].
      rewrite HL. destruct (N.leb_spec 24 (declared_length FmtV3 b));
        destruct (N.ltb_spec (declared_length FmtV3 b) 24); try lia; reflexivity. }
  rewrite Hpre. clear Hpre. unfold cast. change (2 ^ 8) with 256.
  destruct (N.ltb_spec (len b) (layout_size k)) as [H1|H1]; [reflexivity|].
  destruct (N.ltb_spec (declared_length k b) (layout_size k)) as [H2|H2]; [reflexivity|].
  cbn [rbind].
  pose proof (describes_len b _ (parse_describes k b)) as HL. rewrite parse_kind in HL.
  pose proof (describes_major b _ (parse_describes k b)) as HM. rewrite parse_kind in HM.
  rewrite HL, HM.
  destruct (N.leb_spec 2 (declared_major k b)); destruct (N.ltb_spec (declared_major k b) 2); try lia;
    cbn [negb]; [|reflexivity].
  destruct (N.leb_spec (declared_length k b) (len b mod 256));
    destruct (N.ltb_spec (len b mod 256) (declared_length k b)); try lia; cbn [negb]; [|reflexivity].
  unfold slice_index, slice_get.
  assert (declared_length k b <= len b) by lia.
  destruct (N.leb_spec 0 (declared_length k b)); [|lia].
  destruct (N.leb_spec (declared_length k b) (len b)); [|lia].
  cbn [andb obind]. rewrite wrapping_sum_total, N.sub_0_r, drop_0.
  destruct (total _ mod 256 =? 0); reflexivity.
Qed.

Lemma layout_le_31 k : layout_size k <= 31.
Proof. destruct k; cbn; lia. Qed.

Lemma search_at_verdict k b x : search_at k b = Val x <-> verdict k b x.
Proof.
  rewrite search_at_eq. split.
  - destruct (N.ltb_spec (len b) (layout_size k)) as [H1|H1].
    { intros [= <-]. pose proof (layout_le_31 k). rewrite N.mod_small by lia. constructor. assumption. }
    destruct (N.ltb_spec (declared_length k b) (layout_size k)); [intros [= <-]; constructor; assumption|].
    destruct (N.ltb_spec (declared_major k b) 2); [intros [= <-]; constructor; assumption|].
    destruct (N.ltb_spec (len b mod 256) (declared_length k b)); [intros [= <-]; constructor; assumption|].
    destruct (N.eqb_spec (total (take (declared_length k b) b) mod 256) 0); intros [= <-]; constructor; auto.
    + apply parse_kind. + apply parse_describes.
  - intros V. pose proof (layout_le_31 k).
    destruct V;
    repeat match goal with
    | |- context[?a <? ?b] => destruct (N.ltb_spec a b); try lia
    | |- context[?a =? ?b] => destruct (N.eqb_spec a b); try lia
    end; try reflexivity; try congruence.
    + rewrite N.mod_small by lia. reflexivity.
    + do 2 f_equal. apply (describes_fun b); [rewrite parse_kind; congruence|apply parse_describes|assumption].
Qed.

Lemma search_verdict b o k x : first_anchor b o k -> (search b = Val x <-> verdict k (drop o b) x).
Proof. intros H. rewrite (search_anchor _ _ _ H). apply search_at_verdict. Qed.

Lemma anchor_dec b : (exists o k, first_anchor b o k) \/ (forall o k, ~ anchor_at b o k).
Proof.
  pose proof (find_signature_spec b) as S. destruct (find_signature b) as [[k o]|]; eauto.
Qed.

Lemma search_total b : exists x, search b = Val x.
Proof.
  destruct (anchor_dec b) as [[o [k H]]|H].
  - rewrite (search_anchor _ _ _ H), search_at_eq.
    repeat match goal with |- context[if ?x then _ else _] => destruct x end; eauto.
  - apply search_no_anchor in H. eauto.
Qed.

Lemma search_ok b e : search b = Val (Ok e) <->
  exists o, first_anchor b o (kind_of e) /\ verdict (kind_of e) (drop o b) (Ok e).
Proof.
  split.
  - intros H. destruct (anchor_dec b) as [[o [k F]]|N].
    + pose proof H as V. apply (search_verdict b o k _ F) in V. inversion V; subst. eauto.
    + apply search_no_anchor in N. congruence.
  - intros [o [F V]]. apply (search_verdict b o _ _ F). exact V.
Qed.

Lemma search_genuine b e : search b = Val (Ok e) ->
  exists o, first_anchor b o (kind_of e) /\ valid_entry (kind_of e) (drop o b) /\ describes (drop o b) e.
Proof.
  intros H. apply search_ok in H. destruct H as [o [F V]]. exists o. split; [exact F|].
  inversion V; subst. split; [|assumption].
  split; [apply F|]. split; [lia|]. auto.
Qed.

Lemma valid_accept b o k : first_anchor b o k -> valid_entry k (drop o b) ->
  (exists e, search b = Val (Ok e)) <-> declared_length k (drop o b) <= len (drop o b) mod 256.
Proof.
  intros F [A [L [M T]]]. pose proof (layout_le_31 k). split.
  - intros [e H']. apply (search_verdict b o k _ F) in H'. inversion H'; subst. assumption.
  - intros H'. exists (parse_of k (drop o b)). apply (search_verdict b o k _ F).
    constructor; auto; try lia. apply parse_kind. apply parse_describes.
Qed.

Lemma anchor_prefix p b o k : len p mod 16 = 0 -> (forall o' k', ~ anchor_at p o' k') ->
  anchor_at (p ++ b) o k <-> len p <= o /\ anchor_at b (o - len p) k.
Proof.
  intros Hp Np. split.
  - intros [H [r E]]. destruct (N.le_gt_cases (len p) o) as [Ho|Ho].
    + split; [assumption|]. split; [lia|]. exists r. rewrite <- E. rewrite drop_app_ge by lia. reflexivity.
    + exfalso. apply (Np o k). split; [assumption|].
      rewrite drop_app_le in E by lia.
      assert (16 <= len (drop o p)) by (rewrite len_drop; lia).
      exists (drop (len (anchor_string k)) (drop o p)).
      assert (len (anchor_string k) <= 5) by (destruct k; cbn; lia).
      rewrite <- (take_drop (len (anchor_string k)) (drop o p)) at 1. f_equal.
      apply (f_equal (take (len (anchor_string k)))) in E.
      rewrite take_app_le in E by lia. rewrite take_app_exact in E by reflexivity. exact E.
  - intros [Ho [H [r E]]]. split; [lia|]. exists r. rewrite drop_app_ge by lia. exact E.
Qed.

Lemma search_prefix p b : len p mod 16 = 0 -> (forall o k, ~ anchor_at p o k) -> search (p ++ b) = search b.
Proof.
  intros Hp Np. destruct (anchor_dec b) as [[o [k F]]|N].
  - rewrite (search_anchor b o k F). destruct F as [A F].
    rewrite (search_anchor (p ++ b) (len p + o) k).
    + f_equal. rewrite drop_app_ge by lia. f_equal. lia.
    + split.
      * apply anchor_prefix; auto. split; [lia|]. replace (len p + o - len p) with o by lia. exact A.
      * intros o' k' Ho' A'. apply anchor_prefix in A'; auto. destruct A' as [Ho A'].
        apply (F (o' - len p) k'); [lia|exact A'].
  - pose proof N as N'. apply search_no_anchor in N. rewrite N. apply search_no_anchor.
    intros o k A. apply anchor_prefix in A; auto. destruct A as [_ A]. exact (N' _ _ A).
Qed.

Lemma bad_first_anchor b o k : first_anchor b o k -> ~ valid_entry k (drop o b) ->
  exists er, search b = Val (Err er).
Proof.
  intros F NV. destruct (search_total b) as [[e|er] H]; [|eauto].
  exfalso. destruct (search_genuine _ _ H) as [o' [F' [V _]]].
  destruct (first_anchor_fun _ _ _ _ _ F F') as [-> ->]. exact (NV V).
Qed.

(* ---------------------------------------------------- single byte corruption *)

Definition replace_at (i : N) (v : N) (l : list N) : list N := take i l ++ v :: drop (i + 1) l.

Lemma total_app l1 l2 : total (l1 ++ l2) = total l1 + total l2.
Proof. unfold total. induction l1 as [|x l1 IH]; cbn [app fold_right]; [lia|rewrite IH; lia]. Qed.

Lemma split_at i (l : list N) : i < len l -> exists x, byte_at l i = Some x /\ l = take i l ++ x :: drop (i + 1) l.
Proof.
  intros H. destruct (nth_error_len l i H) as [x E]. exists x. split; [exact E|].
  rewrite <- (take_drop i l) at 1. f_equal.
  apply nth_error_split in E. destruct E as [l1 [l2 [-> E]]].
  assert (len l1 = i) by (unfold len; lia).
  rewrite drop_app_exact by lia. rewrite drop_app_ge by lia.
  replace (i + 1 - len l1) with 1 by lia. reflexivity.
Qed.

Lemma byte_at_app_l (l1 l2 : list N) i : i < len l1 -> byte_at (l1 ++ l2) i = byte_at l1 i.
Proof. intros H. unfold byte_at. apply nth_error_app1. unfold len in H. lia. Qed.

Lemma byte_at_some l i x : byte_at l i = Some x -> i < len l.
Proof.
  unfold byte_at. intros E. assert (H : nth_error l (N.to_nat i) <> None) by congruence.
  apply nth_error_Some in H. unfold len. lia.
Qed.
Lemma byte_at_none l i : byte_at l i = None <-> len l <= i.
Proof. unfold byte_at. rewrite nth_error_None. unfold len. lia. Qed.

Lemma byte_at_drop l o i : byte_at (drop o l) i = byte_at l (o + i).
Proof. unfold byte_at. rewrite nth_error_drop. f_equal. lia. Qed.

Lemma value_at_1 b i x : byte_at b i = Some x -> value_at b i 1 = x.
Proof.
  intros E. pose proof (byte_at_some _ _ _ E) as Hi. destruct (split_at i b Hi) as [x' [E' El]].
  rewrite E in E'. injection E' as <-. unfold value_at. rewrite El.
  assert (len (take i b) = i) by (rewrite len_take; lia).
  rewrite drop_app_exact by lia. change (take 1 (x :: drop (i + 1) b)) with [x].
  cbn [little fold_right]. lia.
Qed.

Lemma list_ext (l1 l2 : list N) : (forall i, byte_at l1 i = byte_at l2 i) -> l1 = l2.
Proof.
  revert l2; induction l1 as [|x l1 IH]; intros [|y l2] H.
  - reflexivity.
  - specialize (H 0). discriminate.
  - specialize (H 0). discriminate.
  - assert (x = y) as -> by (specialize (H 0); injection H; auto). f_equal. apply IH.
    intros i. specialize (H (1 + i)). unfold byte_at in *.
    replace (N.to_nat (1 + i)) with (S (N.to_nat i)) in H by lia. exact H.
Qed.

Lemma byte_at_take l n i : byte_at (take n l) i = if i <? n then byte_at l i else None.
Proof.
  destruct (N.ltb_spec i n).
  - destruct (N.le_gt_cases (len l) i).
    + transitivity (@None N); [|symmetry]; apply byte_at_none; rewrite ?len_take; lia.
    + rewrite <- (take_drop n l) at 2. symmetry. apply byte_at_app_l. rewrite len_take. lia.
  - apply byte_at_none. rewrite len_take. lia.
Qed.

Lemma take_ext n l1 l2 : (forall i, i < n -> byte_at l1 i = byte_at l2 i) -> take n l1 = take n l2.
Proof.
  intros H. apply list_ext. intros i. rewrite !byte_at_take. destruct (N.ltb_spec i n); auto.
Qed.

(* anchors only depend on the five bytes at their offset *)
Lemma anchor_iff b o k : anchor_at b o k <-> o mod 16 = 0 /\ take (len (anchor_string k)) (drop o b) = anchor_string k.
Proof.
  unfold anchor_at. split; intros [H H2]; (split; [assumption|]).
  - destruct H2 as [r ->]. apply take_app_exact. reflexivity.
  - exists (drop (len (anchor_string k)) (drop o b)). rewrite <- H2 at 1. symmetry. apply take_drop.
Qed.

Lemma anchor_ext b b' o k :
  (forall i, o <= i < o + len (anchor_string k) -> byte_at b i = byte_at b' i) ->
  anchor_at b o k <-> anchor_at b' o k.
Proof.
  intros H. rewrite !anchor_iff.
  replace (take (len (anchor_string k)) (drop o b')) with (take (len (anchor_string k)) (drop o b)); [reflexivity|].
  apply take_ext. intros i Hi. rewrite !byte_at_drop. apply H. lia.
Qed.

Lemma first_anchor_ext b b' o k :
  (forall i, i < o + len (anchor_string k) -> byte_at b i = byte_at b' i) ->
  first_anchor b o k -> first_anchor b' o k.
Proof.
  intros H [A F]. split.
  - apply (anchor_ext b b'); auto. intros i Hi. apply H. lia.
  - intros o' k' Ho A'. apply (F o' k' Ho). apply (anchor_ext b b'); auto.
    intros i Hi. apply H. pose proof A' as [HA _]. destruct A as [HA2 _].
    assert (len (anchor_string k') <= 5) by (destruct k'; cbn; lia). lia.
Qed.

Lemma total_differ l l' n i : differ_only_at i l l' -> all_bytes l -> all_bytes l' -> i < n -> i < len l ->
  total (take n l) mod 256 = 0 -> total (take n l') mod 256 <> 0.
Proof.
  intros [HL [HD HS]] Bl Bl' Hn Hi.
  destruct (split_at i l Hi) as [x [E El]].
  assert (Hi' : i < len l') by lia.
  destruct (split_at i l' Hi') as [v [E' El']].
  assert (Hvx : v <> x) by congruence.
  assert (T : take i l' = take i l) by (apply take_ext; intros j Hj; apply HS; lia).
  assert (D : drop (i + 1) l' = drop (i + 1) l).
  { apply list_ext. intros j. rewrite !byte_at_drop. apply HS. lia. }
  rewrite T, D in El'. clear T D.
  assert (Hx : x < 256).
  { rewrite El in Bl. apply all_bytes_app in Bl. destruct Bl as [_ Bl]. inversion Bl; assumption. }
  assert (Hv : v < 256).
  { rewrite El' in Bl'. apply all_bytes_app in Bl'. destruct Bl' as [_ Bl']. inversion Bl'; assumption. }
  rewrite El' . rewrite El at 1.
  assert (len (take i l) = i) by (rewrite len_take; lia).
  rewrite !take_app_ge by lia.
  replace (n - len (take i l)) with (1 + (n - i - 1)) by lia.
  change (x :: drop (i + 1) l) with ([x] ++ drop (i + 1) l).
  change (v :: drop (i + 1) l) with ([v] ++ drop (i + 1) l).
  rewrite !(take_app_ge (1 + _)) by llia.
  replace (1 + (n - i - 1) - len [x]) with (n - i - 1) by llia.
  replace (1 + (n - i - 1) - len [v]) with (n - i - 1) by llia.
  rewrite !total_app. cbn [total fold_right].
  set (A := total (take i l)). set (B := total (take (n - i - 1) (drop (i + 1) l))).
  lia.
Qed.

Lemma search_corruption b b' o k i :
  all_bytes b -> all_bytes b' ->
  first_anchor b o k -> valid_entry k (drop o b) ->
  i < declared_length k (drop o b) -> ~ anchor_or_length k i ->
  differ_only_at (o + i) b b' ->
  exists er, search b' = Val (Err er).
Proof.
  intros Bb Bb' F V Hi NA Df.
  destruct (search_total b') as [[e|er] H]; [|eauto]. exfalso.
  destruct (search_genuine _ _ H) as [o' [F' [V' _]]].
  assert (F2 : first_anchor b' o k).
  { apply (first_anchor_ext b); auto. intros j Hj. symmetry. apply Df.
    destruct k; cbn in Hj, NA; lia. }
  destruct (first_anchor_fun _ _ _ _ _ F2 F') as [<- Hk]. subst k.
  set (k := kind_of e) in *.
  destruct V as [_ [VL [_ VT]]]. destruct V' as [_ [VL' [_ VT']]].
  assert (HD : differ_only_at i (drop o b) (drop o b')).
  { destruct Df as [D1 [D2 D3]]. split; [|split].
    - rewrite !len_drop. lia.
    - rewrite !byte_at_drop. exact D2.
    - intros j Hj. rewrite !byte_at_drop. apply D3. lia. }
  assert (HLen : declared_length k (drop o b') = declared_length k (drop o b)).
  { destruct HD as [D1 [_ D3]]. clearbody k. destruct k; cbn [declared_length]; unfold value_at; f_equal;
    apply take_ext; intros j Hj; rewrite (byte_at_drop (drop o b)), (byte_at_drop (drop o b')); apply D3; cbn in NA; lia. }
  rewrite HLen in VT'.
  apply (total_differ (drop o b) (drop o b') (declared_length k (drop o b)) i HD); auto using all_bytes_drop. lia.
Qed.

Lemma search_accessors b e :
  search b = Val (Ok e) ->
  exists o, first_anchor b o (kind_of e) /\
  let v2 x y := match kind_of e with FmtV2 => x | FmtV3 => y end in
  let at_offset := fun off w => little (take w (drop (o + off) b)) in
  ep_major e = at_offset (v2 6 7) 1 /\
  ep_minor e = at_offset (v2 7 8) 1 /\
  ep_revision e = at_offset 10 1 /\
  ep_smbios_len e = at_offset (v2 22 12) (v2 2 4) /\
  ep_smbios_address e = at_offset (v2 24 16) (v2 4 8) /\
  major (ep_to_version e) = ep_major e /\ minor (ep_to_version e) = ep_minor e.
Proof.
  intros H. destruct (search_genuine _ _ H) as [o [F [_ D]]]. exists o. split; [exact F|].
  assert (DD : forall off, drop off (drop o b) = drop (o + off) b).
  { intros off. rewrite drop_drop. f_equal. lia. }
  cbv zeta. destruct e as [p|p]; cbn [kind_of ep_major ep_minor ep_revision ep_smbios_len ep_smbios_address
    ep_to_version major minor] in *; cbn [describes] in D; unfold value_at in D; rewrite !DD in D;
    decompose [and] D; repeat split; assumption.
Qed.
