(* Lemmas for C104: the deciding bytes in tables, and that each of them decides. *)
From Coq Require Import ZArith Lia ZifyBool ZifyNat ZifyN.
From Coq Require Import String.
From Verif Require Import Base G_Enums M_Raw M_Iter Spec S_Iter S_Decode S_Reworded S_Places S_Deciding L_Base L_Iter L_Frame.
From Verif Require Import L_PlacesUse L_Deciding P_System.
Local Open Scope N_scope.

Lemma same_item_refl (x : res Structure) : same_item (fun _ _ => True) x x.
Proof. destruct x; cbn; auto. Qed.

Lemma next_outcome c v n pre ty h0 h1 d d' rest D :
  let table e := (pre ++ [ty; 4 + len d; h0; h1] ++ e ++ rest)%list in
  let from e := {| smbios_version := v; smbios_len_ := n; idx := len pre; buffer := table e |} in
  all_bytes (table d) -> all_bytes (table d') -> len (table d) + 260 <= 2 ^ 32 -> differ_at D d d' ->
  untouched D (deciding v (InfoType_from ty) d) ->
  same_step (next c (from d)) (next c (from d')).
Proof.
  intros table from HB HB' HL HD U.
  assert (HDL : len d = len d') by (destruct HD as [X _]; unfold len; lia).
  assert (HT : len (table d') = len (table d)) by (unfold table; rewrite !len_app; lia).
  assert (HP : len pre <= len (table d)) by (unfold table; rewrite !len_app; lia).
  assert (SX : sane (from d)) by (repeat split; unfold from; cbn [buffer idx]; [exact HB|lia|lia]).
  assert (SY : sane (from d')) by (repeat split; unfold from; cbn [buffer idx]; [exact HB'|lia|lia]).
  assert (BD : all_bytes d /\ all_bytes d').
  { split; [unfold table in HB; apply all_bytes_app in HB as [_ HB]; apply all_bytes_app in HB as [_ HB]; apply all_bytes_app in HB as [HB _]; exact HB
           |unfold table in HB'; apply all_bytes_app in HB' as [_ HB']; apply all_bytes_app in HB' as [_ HB']; apply all_bytes_app in HB' as [HB' _]; exact HB']. }
  assert (TD : forall e, len e = len d -> drop (len pre + (4 + len d)) (table e) = rest).
  { intros e HE. unfold table. rewrite !app_assoc. rewrite drop_app_ge by (rewrite !len_app, HE; unfold len; cbn [length]; lia).
    replace (_ - _) with 0 by (rewrite !len_app, HE; unfold len; cbn [length]; lia). apply drop_0. }
  assert (BY : forall pre' kind l g0 g1 post, table d = (pre' ++ [kind; l; g0; g1] ++ post)%list -> len pre' = len pre ->
    kind = ty /\ l = 4 + len d).
  { intros pre' kind l g0 g1 post E HE. unfold table in E. apply split_at in E as [_ E]; [|congruence].
    apply split_at in E as [E _]; [|reflexivity]. injection E; intros; subst. split; reflexivity. }
  assert (ON : forall y, step c (from d') y -> next c (from d') = y) by (intros y HY; apply next_iff; assumption).
  pose proof (next_step c (from d) SX) as ST. unfold same_step. inversion ST as
    [H1 E|H1 H2 E|H1 H2 E|pre' post kind l g0 g1 H1 H2 H3 H4 E|pre' post kind l g0 g1 H1 H2 H3 H4 H5 E
    |pre' post kind l g0 g1 H1 H2 H3 H4 H5 H6 E|pre' post kind l g0 g1 x y H1 H2 H3 H4 H5 H6 E
    |r item FR H1 H2 HX E|r FR H1 H2 HX E|r FR H1 H2 HX E]; clear ST; cbn [smbios_version smbios_len_ idx buffer from] in *.
  - rewrite (ON _ (table_done c (from d') H1)). cbn. auto.
  - rewrite (ON Panic); [exact I|]. apply position_past_buffer; cbn [smbios_len_ idx buffer from]; [assumption|lia].
  - rewrite (ON UB); [exact I|]. apply header_past_buffer; cbn [smbios_len_ idx buffer from]; [assumption|lia].
  - destruct (BY _ _ _ _ _ _ H2 H3) as [-> ->].
    rewrite (ON _ (length_past_table c (from d') pre (d' ++ rest)%list ty (4 + len d) h0 h1 H1 eq_refl eq_refl H4)). cbn. auto.
  - destruct (BY _ _ _ _ _ _ H1 H2) as [-> ->].
    rewrite (ON _ (length_past_buffer c (from d') pre (d' ++ rest)%list ty (4 + len d) h0 h1 eq_refl eq_refl H3 H4 ltac:(cbn [from buffer idx]; lia))).
    exact I.
  - destruct (BY _ _ _ _ _ _ H1 H2) as [-> ->].
    rewrite (ON _ (strings_not_terminated c (from d') pre (d' ++ rest)%list ty (4 + len d) h0 h1 eq_refl eq_refl H3 H4
      ltac:(cbn [from buffer idx]; lia) ltac:(cbn [from buffer idx]; rewrite (TD d') by lia; rewrite (TD d) in H6 by reflexivity; exact H6))).
    cbn. auto.
  - destruct (BY _ _ _ _ _ _ H1 H2) as [_ X]. lia.
  - destruct (framed_changed v pre ty _ h0 h1 d d' rest r HDL eq_refl FR) as [E1 [E2 [E3 FC]]].
    assert (O : same_outcome (dispatch c r) (dispatch c (with_data d' r))).
    { apply (dispatch_outcome c r d' D); rewrite ?E1, ?E2, ?E3; try assumption; apply BD. }
    rewrite HX in O. unfold same_outcome in O. destruct (dispatch c (with_data d' r)) as [item'| |] eqn:HX'; cbn [same_course] in O; try contradiction.
    rewrite (ON _ (decoded c (from d') (with_data d' r) item' FC H1 H2 HX')). cbn [same_course fst snd].
    split; [exact O|]. cbn [smbios_version from]. change (info (with_data d' r)) with (info r). change (extent (with_data d' r)) with (extent r).
    destruct ((3 <=? major v) && is_end (info r))%bool; cbn; auto.
  - destruct (framed_changed v pre ty _ h0 h1 d d' rest r HDL eq_refl FR) as [E1 [E2 [E3 FC]]].
    assert (O : same_outcome (dispatch c r) (dispatch c (with_data d' r))).
    { apply (dispatch_outcome c r d' D); rewrite ?E1, ?E2, ?E3; try assumption; apply BD. }
    rewrite HX in O. unfold same_outcome in O. destruct (dispatch c (with_data d' r)) as [item'| |] eqn:HX'; cbn [same_course] in O; try contradiction.
    rewrite (ON _ (decoder_panics c (from d') (with_data d' r) FC H1 H2 HX')). exact I.
  - destruct (framed_changed v pre ty _ h0 h1 d d' rest r HDL eq_refl FR) as [E1 [E2 [E3 FC]]].
    assert (O : same_outcome (dispatch c r) (dispatch c (with_data d' r))).
    { apply (dispatch_outcome c r d' D); rewrite ?E1, ?E2, ?E3; try assumption; apply BD. }
    rewrite HX in O. unfold same_outcome in O. destruct (dispatch c (with_data d' r)) as [item'| |] eqn:HX'; cbn [same_course] in O; try contradiction.
    rewrite (ON _ (decoder_overreads c (from d') (with_data d' r) FC H1 H2 HX')). exact I.
Qed.

(* ------------------------------------------------------- each of the bytes decides *)

(* bytes for which each deciding byte can turn the outcome *)
Definition turning (v : SmbiosVersion) (i : InfoType) : list N :=
  let ones n := repeat 1 n in
  match i with
  | InfoType_Enclosure => (ones 15%nat ++ [1; 3; 0; 0; 0; 1; 0; 0; 77])%list
  | InfoType_SystemSlots => ones (if since v 2 6 then 13 else if since v 2 1 then 9 else 8)%nat
  | InfoType_SystemConfigurationOptions => [3]
  | InfoType_SystemEventLog => (ones 17%nat ++ [1; 2; 0; 0])%list
  | InfoType_PhysicalMemoryArray => [1; 1; 1; 0; 0; 0; 0x80; 0; 0; 0; 0]
  | InfoType_PortableBattery => ones (if since v 2 2 then 22 else 12)%nat
  | InfoType_MemoryDevice => ones 88%nat
  | _ => ones 44%nat
  end.
Definition outcome (m : out (res Structure)) : N := match m with Val (Ok _) => 0 | Val (Err _) => 1 | Panic => 2 | UB => 3 end.
Definition turns (r : RawStructure) (k : N) : bool :=
  (4 <=? k) && (k <? 4 + len (data r)) &&
  existsb (fun b => negb (outcome (dispatch ex_strict r) =? outcome (dispatch ex_strict (with_data (replaced k b (data r)) r)))) [77; 2; 6].
Definition untold (v : SmbiosVersion) (i : InfoType) : list N :=
  let r := ex_struct (major v) (minor v) i (turning v i) [] in
  filter (fun k => negb (turns r k)) (bytes_of (deciding v i (data r))).
Lemma nothing_untold v i : In v published -> untold v i = [].
Proof.
  intros HV. assert (X : forallb (fun w => match untold w i with [] => true | _ => false end) published = true) by (destruct i; vm_compute; reflexivity).
  rewrite forallb_forall in X. specialize (X v HV). destruct (untold v i); [reflexivity|discriminate].
Qed.
Lemma outcome_differs m m' : outcome m <> outcome m' -> ~ same_outcome m m'.
Proof. intros H S. apply H. unfold same_outcome in S. destruct m as [[]| |], m' as [[]| |]; cbn in *; try contradiction; reflexivity. Qed.
Lemma replaced_bytes k b l : b < 256 -> all_bytes l -> all_bytes (replaced k b l).
Proof.
  intros HB HL. unfold replaced. apply all_bytes_app. split; [apply all_bytes_take, HL|].
  constructor; [exact HB|]. apply all_bytes_drop, HL.
Qed.
Lemma turning_bytes v i : all_bytes (turning v i).
Proof.
  apply all_bytes_dec. destruct i; try (vm_compute; reflexivity); cbn [turning];
    repeat match goal with |- context [since ?a ?b ?c] => destruct (since a b c) end; vm_compute; reflexivity.
Qed.

Lemma each_turns v i : In v published -> exists c r, info r = i /\ version r = v /\ all_bytes (data r) /\
  forall p k, In p (deciding v i (data r)) -> in_place k p ->
    exists d, differ_at (eq k) (data r) d /\ all_bytes d /\ ~ same_outcome (dispatch c r) (dispatch c (with_data d r)).
Proof.
  intros HV. exists ex_strict, (ex_struct (major v) (minor v) i (turning v i) []). split; [reflexivity|].
  split; [destruct v; reflexivity|]. cbn [data ex_struct]. split; [apply turning_bytes|].
  intros p k HP HK. pose proof (nothing_untold v i HV) as HU. unfold untold in HU. cbn [data ex_struct] in HU.
  assert (HI : In k (bytes_of (deciding v i (turning v i)))).
  { destruct p as [a n|a]; cbn [in_place] in HK; [eapply bytes_of_in; [exact HP|lia|lia]|].
    exfalso. clear -HP. destruct i; cbn [deciding] in HP;
      repeat match type of HP with context [if ?b then _ else _] => destruct b end; cbn [In] in HP;
      repeat destruct HP as [HP|HP]; try discriminate; contradiction. }
  assert (HT : turns (ex_struct (major v) (minor v) i (turning v i) []) k = true).
  { destruct (turns _ k) eqn:E; [reflexivity|exfalso].
    assert (X : In k (filter (fun k => negb (turns (ex_struct (major v) (minor v) i (turning v i) []) k)) (bytes_of (deciding v i (turning v i))))).
    { apply filter_In. split; [exact HI|]. rewrite E. reflexivity. }
    rewrite HU in X. exact X. }
  unfold turns in HT. cbn [data ex_struct] in HT. apply andb_prop in HT as [HT HE]. apply andb_prop in HT as [H1 H2].
  apply existsb_exists in HE as [b [HB HE]]. exists (replaced k b (turning v i)). split; [apply replaced_differs; lia|].
  split; [apply replaced_bytes; [|apply turning_bytes]; repeat destruct HB as [<-|HB]; [reflexivity|reflexivity|reflexivity|contradiction]|].
  apply outcome_differs. intros X. rewrite X, N.eqb_refl in HE. discriminate.
Qed.
