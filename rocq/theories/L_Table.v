(* Lemmas for P_Table. *)
From Coq Require Import ZArith Lia ZifyBool ZifyNat ZifyN.
From Verif Require Import Base G_Enums M_Raw M_Entry M_Strings M_Iter Spec S_Entry S_Iter S_Table L_Base L_Entry L_Iter L_After L_Frame.
Local Open Scope N_scope.
Ltac Zify.zify_post_hook ::= Z.div_mod_to_equations.

(* ------------------------------------------------------------- iteration *)

Lemma next_encoded c v front e ss rest n :
  let s := {| smbios_version := v; smbios_len_ := n; idx := len front; buffer := front ++ table (e :: ss) ++ rest |} in
  encodable_ok e -> len front + len (encode e) <= n -> sane s ->
  next c s = let! x := dispatch c (raw_of v e (table ss ++ rest)) in
    Val (Some x, if (3 <=? major v) && (e_type e =? 127)
                 then stopped_at (len (front ++ encode e)) s
                 else {| smbios_version := v; smbios_len_ := n; idx := len (front ++ encode e);
                         buffer := (front ++ encode e) ++ table ss ++ rest |}).
Proof.
  intros s He Hn HS.
  set (r := raw_of v e (table ss ++ rest)) in *.
  assert (FR : framed v (buffer s) (idx s) r).
  { subst s r. cbn [buffer idx]. rewrite table_cons, <- app_assoc. apply framed_encode, He. }
  pose proof (len_encode e) as LE.
  rewrite (next_framed c s r HS FR); [|subst s r; cbn [idx smbios_len_ raw_of length_]; lia..].
  assert (HE : extent r = len (encode e)) by apply extent_encode.
  assert (HI : is_end (info r) = (e_type e =? 127)) by apply InfoType_End_iff.
  rewrite HI, HE.
  replace (idx s + len (encode e)) with (len (front ++ encode e)) by (subst s; cbn [idx]; apply len_app).
  replace (moved_to (len (front ++ encode e)) s) with
    {| smbios_version := v; smbios_len_ := n; idx := len (front ++ encode e);
       buffer := (front ++ encode e) ++ table ss ++ rest |}; [reflexivity|].
  unfold moved_to, s. cbn [smbios_version smbios_len_ buffer]. rewrite table_cons, <- !app_assoc. reflexivity.
Qed.

Lemma runs_encoded c v rest : forall ss front n,
  Forall encodable_ok ss ->
  (len front + len (table ss) <= n < len front + len (table ss) + 4 \/
   (3 <= major v /\ (exists s, In s ss /\ e_type s = 127) /\ len front + len (table ss) <= n)) ->
  let s := {| smbios_version := v; smbios_len_ := n; idx := len front; buffer := front ++ table ss ++ rest |} in
  sane s -> forall l f, decode_all c (shown v ss rest) l f ->
  exists e, runs (next c) s l e /\ finish_of e = f.
Proof.
  induction ss as [|e ss IH]; intros front n F Hn s HS l f D.
  - inversion D; subst. exists (Exhausted s). split; [|reflexivity]. apply runs_none. apply stopped_none; [exact HS|].
    destruct Hn as [Hn|[_ [[x [[] _]] _]]]. subst s. cbn [smbios_len_ idx]. change (len (table [])) with 0 in Hn. lia.
  - inversion F as [|? ? He F']; subst.
    assert (HN : len front + len (encode e) <= n).
    { rewrite table_cons in Hn. rewrite len_app in Hn. destruct Hn as [Hn|[_ [_ Hn]]]; lia. }
    pose proof (next_encoded c v front e ss rest n He HN HS) as N1. fold s in N1.
    cbn [shown] in D. inversion D as [|? ? x l' ? E D'|? ? E|? ? E]; subst; rewrite E in N1; cbn [obind] in N1.
    + pose proof (proj1 (next_sane c s _ _ HS N1)) as HT.
      destruct ((3 <=? major v) && (e_type e =? 127)) eqn:EE.
      * inversion D'; subst. exists (Exhausted (stopped_at (len (front ++ encode e)) s)). split; [|reflexivity].
        eapply runs_some; [exact N1|]. apply runs_none. apply stopped_none; [exact HT|]. cbn [stopped_at smbios_len_ idx]. lia.
      * destruct (IH (front ++ encode e) n F') with (l := l') (f := f) as [en [R FE]]; [|exact HT|exact D'|].
        { rewrite table_cons in Hn. rewrite !len_app in *. destruct Hn as [Hn|[H3 [[q [[<-|Q] HQ]] Hn]]]; [left; lia| |].
          - rewrite HQ in EE. cbn in EE. destruct (N.leb_spec 3 (major v)); [discriminate|lia].
          - right. split; [exact H3|]. split; [exists q; auto|lia]. }
        exists en. split; [|exact FE]. eapply runs_some; [exact N1|exact R].
    + exists Panicked. split; [|reflexivity]. apply runs_panic. exact N1.
    + exists Undefined. split; [|reflexivity]. apply runs_ub. exact N1.
Qed.

Lemma runs_announced c e ss rest l f :
  Forall encodable_ok ss -> announces (ep_to_version e) (ep_smbios_len e) ss ->
  all_bytes (table ss ++ rest) -> len (table ss ++ rest) + 260 <= 2 ^ 32 ->
  decode_all c (shown (ep_to_version e) ss rest) l f ->
  exists en, runs (next c) (structures e (table ss ++ rest)) l en /\ finish_of en = f.
Proof.
  intros F HL HB HS D. apply (runs_encoded c (ep_to_version e) rest ss [] (ep_smbios_len e)); auto.
  split; [exact HB|]. split; [cbn; lia|exact HS].
Qed.

Lemma decode_all_total c : forall rs, exists l f, decode_all c rs l f.
Proof.
  induction rs as [|r rs [l [f IH]]]; [do 2 eexists; constructor|].
  destruct (dispatch c r) as [x| |] eqn:E.
  - exists (x :: l), f. constructor; assumption.
  - exists [], Crashed. constructor. exact E.
  - exists [], Overread. constructor. exact E.
Qed.

(* ----------------------------------------------------- encoded entry points *)

Lemma len_to_bytes w n : len (to_bytes w n) = N.of_nat w.
Proof. revert n. induction w as [|w IH]; intros n; [reflexivity|]. cbn [to_bytes]. rewrite len_cons, IH. lia. Qed.
Lemma little_to_bytes w : forall n, little (to_bytes w n) = n mod 256 ^ N.of_nat w.
Proof.
  induction w as [|w IH]; intros n.
  - cbn. rewrite N.mod_1_r. reflexivity.
  - cbn [to_bytes]. change (little (n mod 256 :: to_bytes w (n / 256))) with (n mod 256 + 256 * little (to_bytes w (n / 256))).
    rewrite IH. replace (N.of_nat (S w)) with (N.succ (N.of_nat w)) by lia. rewrite N.pow_succ_r'.
    rewrite N.mod_mul_r; [reflexivity|discriminate|]. apply N.pow_nonzero. discriminate.
Qed.
Lemma total_app a b : total (a ++ b) = total a + total b.
Proof. unfold total. induction a as [|x a IH]; [reflexivity|]. cbn [app fold_right]. rewrite IH. lia. Qed.

Lemma to_bytes_all w n : all_bytes (to_bytes w n).
Proof. revert n. induction w as [|w IH]; intros n; constructor; [unfold is_byte; lia|apply IH]. Qed.

Lemma entry_split x a : exists rest, entry_with x a = anchor_string (a_kind a) ++ x :: rest /\
  entry_with 0 a = anchor_string (a_kind a) ++ 0 :: rest.
Proof. unfold entry_with. destruct (a_kind a); eexists; split; reflexivity. Qed.

Lemma entry_sum a : total (encode_entry a) mod 256 = 0.
Proof.
  unfold encode_entry. destruct (entry_split (complement (entry_with 0 a)) a) as [rest [E E0]]. rewrite E, total_app.
  assert (T : total (entry_with 0 a) = total (anchor_string (a_kind a)) + total rest).
  { rewrite E0, total_app. unfold total. cbn [fold_right]. lia. }
  change (total (complement (entry_with 0 a) :: rest)) with (complement (entry_with 0 a) + total rest).
  unfold complement. rewrite T. lia.
Qed.
Lemma entry_len a : len (encode_entry a) = layout_size (a_kind a).
Proof. unfold encode_entry, entry_with, intermediate. destruct (a_kind a); lens; rewrite ?len_to_bytes; reflexivity. Qed.

(* reading a value inside a concatenation *)
Lemma value_skip p l o w : len p <= o -> value_at (p ++ l) o w = value_at l (o - len p) w.
Proof. intros H. unfold value_at. rewrite drop_app_ge by exact H. reflexivity. Qed.
Lemma value_here w n l : value_at (to_bytes w n ++ l) 0 (N.of_nat w) = n mod 256 ^ N.of_nat w.
Proof. unfold value_at. rewrite drop_0, take_app_exact by (rewrite len_to_bytes; reflexivity). apply little_to_bytes. Qed.
Lemma value_byte x l : value_at (x :: l) 0 1 = x.
Proof. apply N.add_0_r. Qed.

Lemma encoded_valid a tail : announcement_ok a -> valid_entry (a_kind a) (encode_entry a ++ tail).
Proof.
  intros OK. pose proof (entry_sum a) as SUM. pose proof (entry_len a) as LEN.
  assert (D : declared_length (a_kind a) (encode_entry a ++ tail) = layout_size (a_kind a)).
  { unfold encode_entry, entry_with, intermediate. destruct (a_kind a); reflexivity. }
  assert (M : declared_major (a_kind a) (encode_entry a ++ tail) = a_major a).
  { unfold encode_entry, entry_with, intermediate, declared_major, value_at. destruct (a_kind a); apply N.add_0_r. }
  split; [|split; [|split]].
  - unfold encode_entry. destruct (entry_split (complement (entry_with 0 a)) a) as [rest [E _]]. rewrite E, <- app_assoc. eauto.
  - rewrite D, len_app, LEN. lia.
  - rewrite M. destruct OK as [OK _]. lia.
  - rewrite D, <- LEN, take_app_exact by reflexivity. exact SUM.
Qed.

Lemma encoded_first a tail : first_anchor (encode_entry a ++ tail) 0 (a_kind a).
Proof.
  split; [|intros o' k' H; lia]. split; [reflexivity|]. rewrite drop_0. unfold encode_entry.
  destruct (entry_split (complement (entry_with 0 a)) a) as [rest [E _]]. rewrite E, <- app_assoc. eauto.
Qed.

Lemma first_anchor_kind b o k o' k' : first_anchor b o k -> first_anchor b o' k' -> k = k' /\ o = o'.
Proof.
  intros [[A1 [r1 A2]] A3] [[B1 [r2 B2]] B3].
  assert (o = o').
  { destruct (N.lt_trichotomy o o') as [H|[H|H]]; [|exact H|].
    - destruct (B3 o k H). split; eauto.
    - destruct (A3 o' k' H). split; eauto. }
  subst o'. rewrite A2 in B2. destruct k, k'; cbn in B2; try discriminate; auto.
Qed.

Lemma search_encoded p a tail : announcement_ok a -> len p mod 16 = 0 -> (forall o k, ~ anchor_at p o k) ->
  layout_size (a_kind a) <= (layout_size (a_kind a) + len tail) mod 256 ->
  exists e, search (p ++ encode_entry a ++ tail) = Val (Ok e) /\ kind_of e = a_kind a /\
    ep_major e = a_major a /\ ep_minor e = a_minor a /\ ep_revision e = a_revision a /\
    ep_smbios_len e = a_length a /\ ep_smbios_address e = a_address a.
Proof.
  intros OK HP NA HT. rewrite search_prefix by assumption.
  assert (ACC : exists e, search (encode_entry a ++ tail) = Val (Ok e)).
  { apply (valid_accept _ 0 (a_kind a)); [apply encoded_first|apply encoded_valid; exact OK|].
    rewrite drop_0, len_app, entry_len.
    replace (declared_length (a_kind a) (encode_entry a ++ tail)) with (layout_size (a_kind a)); [exact HT|].
    unfold encode_entry, entry_with, intermediate. destruct (a_kind a); reflexivity. }
  destruct ACC as [e E]. exists e. split; [exact E|].
  destruct (search_genuine _ _ E) as [o [FA [_ DE]]].
  destruct (first_anchor_kind _ _ _ _ _ (encoded_first a tail) FA) as [K <-]. rewrite drop_0 in DE.
  split; [symmetry; exact K|]. destruct OK as [O1 [O2 [O3 [O4 [O5 [O6 O7]]]]]].
  assert (DE' : describes (entry_with (complement (entry_with 0 a)) a ++ tail) e) by exact DE. clear DE. revert DE'.
  generalize (complement (entry_with 0 a)). intros x DE. unfold entry_with in DE.
  destruct e as [q|q]; cbn [kind_of] in K; rewrite K in *; cbn [describes] in DE.
  - destruct DE as [_ [_ [_ [D3 [D4 [_ [D6 [_ [_ [_ [D10 [D11 _]]]]]]]]]]]].
    unfold ep_major, ep_minor, ep_revision, ep_smbios_len, ep_smbios_address.
    split; [rewrite D3; apply N.add_0_r|]. split; [rewrite D4; apply N.add_0_r|].
    split; [rewrite D6; apply N.add_0_r|]. split.
    + rewrite D10. transitivity (little (to_bytes 2 (a_length a))); [reflexivity|]. rewrite little_to_bytes. apply N.mod_small. exact O6.
    + rewrite D11. transitivity (little (to_bytes 4 (a_address a))); [reflexivity|]. rewrite little_to_bytes. apply N.mod_small. exact O7.
  - destruct DE as [_ [_ [_ [D3 [D4 [_ [D6 [_ [D10 D11]]]]]]]]].
    unfold ep_major, ep_minor, ep_revision, ep_smbios_len, ep_smbios_address.
    split; [rewrite D3; apply N.add_0_r|]. split; [rewrite D4; apply N.add_0_r|].
    split; [rewrite D6; apply N.add_0_r|]. split.
    + rewrite D10. transitivity (little (to_bytes 4 (a_length a))); [reflexivity|]. rewrite little_to_bytes. apply N.mod_small. exact O6.
    + rewrite D11. transitivity (little (to_bytes 8 (a_address a))); [reflexivity|]. rewrite little_to_bytes. apply N.mod_small. exact O7.
Qed.

(* ------------------------------------------------------- appending bytes *)

Lemma framed_longer v buf pos r rest : framed v buf pos r ->
  exists r', framed v (buf ++ rest) pos r' /\ bare r' = bare r.
Proof.
  intros [pre [post [k [h0 [h1 [E [L [LL [A [I [H [V AF]]]]]]]]]]]].
  exists {| version := version r; info := info r; length_ := length_ r; handle := handle r; data := data r;
            strings := strings r; after := strings r ++ post ++ rest |}.
  split; [|reflexivity]. exists pre, (post ++ rest), k, h0, h1. cbn [version info length_ handle data strings after].
  split; [rewrite E, <- !app_assoc; reflexivity|]. auto 10.
Qed.
Lemma longer_stopped p s rest : longer (stopped_at p s) rest = stopped_at p (longer s rest).
Proof. reflexivity. Qed.
Lemma longer_moved p s rest : longer (moved_to p s) rest = moved_to p (longer s rest).
Proof. reflexivity. Qed.

Lemma next_longer c s rest x s' : flat_memory c = false -> sane s -> sane (longer s rest) ->
  next c s = Val (x, s') -> (forall p, x <> Some (Err (UnterminatedStrings p))) ->
  exists x', next c (longer s rest) = Val (x', longer s' rest) /\ option_map seen x' = option_map seen x.
Proof.
  intros HF HS HL HN HU. apply next_iff in HN; [|exact HS].
  inversion HN as [H1| | |pre post kind l h0 h1 H1 EB EL H2| |pre post kind l h0 h1 EB EL H1 H2 H3 ND| |r item F H1 H2 D| |]; subst.
  - exists None. split; [|reflexivity]. apply stopped_none; [exact HL|exact H1].
  - eexists. split; [|reflexivity]. rewrite longer_stopped. apply next_iff; [exact HL|].
    apply (length_past_table c (longer s rest) pre (post ++ rest) kind l h0 h1); try assumption.
    cbn [longer buffer]. rewrite EB, <- !app_assoc. reflexivity.
  - destruct (HU (idx s)). reflexivity.
  - destruct (framed_longer _ _ _ _ rest F) as [r' [F' B]].
    assert (BL : length_ r' = length_ r) by (change (length_ (bare r') = length_ (bare r)); congruence).
    assert (BI : info r' = info r) by (change (info (bare r') = info (bare r)); congruence).
    assert (BS : strings r' = strings r) by (change (strings (bare r') = strings (bare r)); congruence).
    assert (BE : extent r' = extent r) by (unfold extent; congruence).
    pose proof (dispatch_same c r' r HF B) as DS. rewrite D in DS. cbn [omap] in DS.
    destruct (dispatch c r') as [item'| |] eqn:D'; try discriminate DS. cbn in DS. injection DS as DS.
    exists (Some item'). split; [|cbn; rewrite DS; reflexivity].
    rewrite (next_framed c (longer s rest) r' HL F'); [|cbn [longer idx smbios_len_]; rewrite ?BL; assumption..].
    rewrite D'. cbn [obind longer smbios_version]. rewrite BI, BE. destruct (_ && _); reflexivity.
Qed.

Lemma runs_longer c s l s' : flat_memory c = false -> forall rest, sane s -> sane (longer s rest) ->
  runs (next c) s l (Exhausted s') -> (forall p, ~ In (Err (UnterminatedStrings p)) l) ->
  exists l', runs (next c) (longer s rest) l' (Exhausted (longer s' rest)) /\ map seen l' = map seen l.
Proof.
  intros HF rest HS HL R. remember (Exhausted s') as en eqn:EE. revert HS HL EE.
  induction R as [s t E| | |s a s1 l e E R IH]; intros HS HL EE HU; try discriminate.
  - injection EE as <-. destruct (next_longer c s rest None t HF HS HL E) as [x' [E' X]]; [discriminate|].
    destruct x'; [discriminate|]. exists []. split; [apply runs_none; exact E'|reflexivity].
  - destruct (next_longer c s rest (Some a) s1 HF HS HL E) as [x' [E' X]].
    { intros p [= ->]. apply (HU p). left. reflexivity. }
    destruct x' as [a'|]; [|discriminate]. injection X as X.
    destruct (IH (proj1 (next_sane c _ _ _ HS E)) (proj1 (next_sane c _ _ _ HL E')) EE) as [l' [R' M]].
    { intros p HP. apply (HU p). right. exact HP. }
    exists (a' :: l'). split; [eapply runs_some; [exact E'|exact R']|]. cbn [map]. rewrite X, M. reflexivity.
Qed.
