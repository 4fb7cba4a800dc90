(* Proofs that written structures are read back. *)
From Coq Require Import String.
From Coq Require Import ZArith Lia ZifyBool ZifyNat ZifyN.
From Verif Require Import Base G_Enums M_Raw M_Bios M_System M_BaseBoard M_Enclosure M_Processor M_Cache.
From Verif Require Import M_PortConnector M_SystemSlots M_Strings M_GroupAssociations M_SystemEventLog.
From Verif Require Import M_PhysicalMemoryArray M_MemoryDevice M_Memory M_PortableBattery M_Entry M_Iter.
From Verif Require Import Spec S_Enums S_Iter S_Decode S_System S_Hardware S_Lists S_EventLog S_Memory S_Write.
From Verif Require Import L_Base L_Strings L_Enums L_Decode L_System L_Enclosure L_Hardware L_Cache L_Slots L_Lists.
From Verif Require Import L_EventLog L_Array L_Memory L_Battery L_Iter.
Local Open Scope N_scope.
Ltac Zify.zify_post_hook ::= Z.div_mod_to_equations.

(* ------------------------------------------------------------ bytes of items *)

Lemma len_stored w x : len (stored w x) = N.of_nat w.
Proof. revert x. induction w as [|w IH]; intros x; [reflexivity|]. cbn [stored]. rewrite len_cons, IH. lia. Qed.

Lemma little_stored w : forall x, x < 256 ^ N.of_nat w -> little (stored w x) = x.
Proof.
  induction w as [|w IH]; intros x H.
  - cbn in *. lia.
  - cbn [stored]. change (little (x mod 256 :: stored w (x / 256))) with (x mod 256 + 256 * little (stored w (x / 256))).
    rewrite IH; [lia|]. rewrite Nat2N.inj_succ, N.pow_succ_r' in H. lia.
Qed.

Lemma all_bytes_stored w : forall x, all_bytes (stored w x).
Proof. induction w as [|w IH]; intros x; constructor; [unfold is_byte; lia|apply IH]. Qed.

Lemma sizes_cons i l : sizes (i :: l) = item_size i + sizes l.
Proof. reflexivity. Qed.
Lemma sizes_app a b : sizes (a ++ b) = sizes a + sizes b.
Proof. induction a as [|i a IH]; [reflexivity|]. cbn [app]. rewrite !sizes_cons, IH. lia. Qed.

Definition bytes_of (k : N) (i : item) : list N :=
  match i with
  | U8 x => stored 1 x | U16 x => stored 2 x | U32 x => stored 4 x | U64 x => stored 8 x
  | Raw b => b | Ref [] => [0] | Ref (_ :: _) => [k]
  end.
Definition texts_of (i : item) : list text := match i with Ref (b :: t) => [b :: t] | _ => [] end.

Lemma texts_cons i l : texts (i :: l) = texts_of i ++ texts l.
Proof. destruct i as [| | | |[|b t]|]; reflexivity. Qed.
Lemma texts_app a b : texts (a ++ b) = texts a ++ texts b.
Proof. induction a as [|i a IH]; [reflexivity|]. cbn [app]. rewrite !texts_cons, IH, app_assoc. reflexivity. Qed.
Lemma formatted_cons k i l : formatted k (i :: l) = bytes_of k i ++ formatted (k + len (texts_of i)) l.
Proof. destruct i as [| | | |[|b t]|]; cbn [formatted bytes_of texts_of app]; rewrite ?len_nil, ?N.add_0_r; reflexivity. Qed.
Lemma len_bytes_of k i : len (bytes_of k i) = item_size i.
Proof. destruct i as [| | | |[|b t]|]; try apply len_stored; reflexivity. Qed.
Lemma formatted_app a : forall k b, formatted k (a ++ b) = formatted k a ++ formatted (k + len (texts a)) b.
Proof.
  induction a as [|i a IH]; intros k b.
  - cbn [app texts]. rewrite len_nil, N.add_0_r. reflexivity.
  - cbn [app]. rewrite !formatted_cons, IH, app_assoc, texts_cons, len_app, N.add_assoc. reflexivity.
Qed.
Lemma len_formatted l : forall k, len (formatted k l) = sizes l.
Proof.
  induction l as [|i l IH]; intros k; [reflexivity|].
  rewrite formatted_cons, len_app, len_bytes_of, IH, sizes_cons. reflexivity.
Qed.

Lemma all_bytes_formatted l : forall k, Forall item_ok l -> k + len (texts l) <= 256 -> all_bytes (formatted k l).
Proof.
  induction l as [|i l IH]; intros k F H; [constructor|].
  inversion F as [|? ? Hi F']; subst. rewrite texts_cons, len_app in H. rewrite formatted_cons.
  apply all_bytes_app. split; [|apply IH; [exact F'|lia]].
  destruct i as [x|x|x|x|[|b t]|x]; try apply all_bytes_stored; cbn [bytes_of].
  - repeat constructor.
  - constructor; [|constructor]. unfold is_byte. cbn [texts_of] in H. rewrite len_cons, len_nil in H. lia.
  - exact Hi.
Qed.

Lemma texts_good l : Forall item_ok l -> Forall good_string (texts l).
Proof.
  induction l as [|i l IH]; intros F; [constructor|]. inversion F as [|? ? Hi F']; subst. rewrite texts_cons.
  apply Forall_app. split; [|apply IH, F']. destruct i as [| | | |[|b t]|]; try constructor; [|constructor].
  destruct Hi as [Hi|Hi]; [discriminate|exact Hi].
Qed.

Lemma utf8_bytes t : utf8 t -> all_bytes t.
Proof.
  intros [cs [F ->]]. induction F as [|c cs S F IH]; [constructor|]. cbn [flat_map]. apply all_bytes_app. split; [|exact IH].
  unfold utf8_encode, scalar in *.
  destruct (N.ltb_spec c 0x80); [repeat constructor; unfold is_byte; lia|].
  destruct (N.ltb_spec c 0x800); [repeat constructor; unfold is_byte; lia|].
  destruct (N.ltb_spec c 0x10000); repeat constructor; unfold is_byte; lia.
Qed.

Lemma terminated_bytes ss : Forall good_string ss -> all_bytes (terminated ss).
Proof.
  induction 1 as [|t ss [_ [_ U]] F IH]; [constructor|]. rewrite terminated_cons.
  apply all_bytes_app. split; [apply utf8_bytes, U|]. constructor; [reflexivity|exact IH].
Qed.

Lemma encode_strings_some ss : ss <> [] -> encode_strings ss = terminated ss ++ [0].
Proof. destruct ss; [congruence|reflexivity]. Qed.

Lemma encode_strings_bytes ss : Forall good_string ss -> all_bytes (encode_strings ss).
Proof.
  intros F. destruct ss as [|t ss]; [repeat constructor|]. cbn [encode_strings].
  apply all_bytes_app. split; [apply terminated_bytes, F|repeat constructor].
Qed.

Lemma encode_strings_of ss : Forall good_string ss -> strings_of (encode_strings ss) ss.
Proof.
  intros F. set (r := {| version := version_of 0 0; info := InfoType_End; length_ := 0; handle := 0; data := [];
                         strings := encode_strings ss; after := [] |}).
  assert (D : exists tail, encode_strings ss = terminated ss ++ tail /\ (tail = [] \/ exists tl, tail = 0 :: tl)).
  { destruct ss as [|t ss]; [exists [0; 0]|exists [0]]; split; eauto. }
  destruct D as [tail [E T]].
  destruct (drain_terminated_new ss tail F T) as [s' [D _]].
  apply (drains_strings_of r ss s'). unfold raw_strings. cbn [strings r]. rewrite E. exact D.
Qed.

(* ---------------------------------------------- what is known of the structure *)

Record wrote (v : SmbiosVersion) (ty : N) (items : list item) (more : list text) (r : RawStructure) : Prop := {
  wrote_version : version r = v;
  wrote_info : info r = InfoType_from ty;
  wrote_length : length_ r = 4 + len (data r);
  wrote_bytes : all_bytes (data r);
  wrote_size : len (data r) = sizes items;
  wrote_small : sizes items <= 251;
  wrote_items : Forall item_ok items;
  wrote_data : data r = formatted 1 items;
  wrote_strings : strings r = encode_strings (texts items ++ more);
  wrote_good : Forall good_string (texts items ++ more)
}.

Lemma raw_wrote v w rest : written_ok w -> wrote v (w_type w) (w_items w) (w_more w) (raw_of v (encoded w) rest).
Proof.
  intros [H1 [H2 [H3 [H4 [H5 H6]]]]]. constructor; try reflexivity; cbn [raw_of encoded data e_body]; auto.
  - apply all_bytes_formatted; [exact H3|lia].
  - apply len_formatted.
  - apply Forall_app. split; [apply texts_good, H3|exact H4].
Qed.

Lemma encoded_ok w : written_ok w -> encodable_ok (encoded w).
Proof.
  intros [H1 [H2 [H3 [H4 [H5 H6]]]]]. cbn [encoded e_type e_handle e_body e_strings].
  split; [exact H1|]. split; [exact H2|]. cbn [encoded e_type e_handle e_body e_strings].
  split; [rewrite len_formatted; exact H5|]. apply Forall_app. split.
  - eapply Forall_impl; [|apply texts_good, H3]. intros t [A [B _]]. auto.
  - eapply Forall_impl; [|exact H4]. intros t [A [B _]]. auto.
Qed.

Lemma encoded_bytes w : written_ok w -> all_bytes (encode (encoded w)).
Proof.
  intros [H1 [H2 [H3 [H4 [H5 H6]]]]]. unfold encode. cbn [encoded e_type e_handle e_body e_strings].
  apply all_bytes_app. split.
  - rewrite len_formatted. repeat constructor; unfold is_byte; lia.
  - apply all_bytes_app. split; [apply all_bytes_formatted; [exact H3|lia]|].
    apply encode_strings_bytes, Forall_app. split; [apply texts_good, H3|exact H4].
Qed.

Lemma table_bytes ws : Forall written_ok ws -> all_bytes (table (map encoded ws)).
Proof.
  induction 1 as [|w ws H F IH]; [constructor|]. cbn [map]. rewrite table_cons. apply all_bytes_app.
  split; [apply encoded_bytes, H|exact IH].
Qed.

(* ------------------------------------------------------------ reading an item *)

Lemma field_at r a b c off w : data r = a ++ b ++ c -> 4 + len a = off -> len b = w -> field r off w = Some (little b).
Proof.
  intros E H1 H2. rewrite field_in by (unfold reaches; rewrite ?E; lens; lia). f_equal.
  rewrite at_le, E, drop_app_exact by lia. rewrite take_app_exact by lia. reflexivity.
Qed.

(* the number an item holds, with its width *)
Definition number (i : item) : option (N * N) :=
  match i with U8 x => Some (1, x) | U16 x => Some (2, x) | U32 x => Some (4, x) | U64 x => Some (8, x) | _ => None end.

Lemma read_number v ty items more r off w x pre i post : wrote v ty items more r ->
  items = pre ++ i :: post -> 4 + sizes pre = off -> number i = Some (w, x) -> field r off w = Some x.
Proof.
  intros W E H M. pose proof (wrote_items _ _ _ _ _ W) as F. pose proof (wrote_data _ _ _ _ _ W) as D.
  rewrite E in F, D. apply Forall_app in F. destruct F as [_ F]. inversion F as [|? ? Hi _]; subst.
  rewrite formatted_app, formatted_cons in D. set (k := 1 + len (texts pre)) in *.
  rewrite (field_at r _ _ _ _ w D); [|rewrite len_formatted; reflexivity|].
  - f_equal. destruct i; cbn [number bytes_of item_ok] in *; try discriminate; injection M as <- <-;
      apply little_stored; cbn; assumption.
  - rewrite len_bytes_of. destruct i; cbn [number item_size] in *; try discriminate; injection M as <- <-; reflexivity.
Qed.

Lemma read_ref v ty items more r off t pre post : wrote v ty items more r ->
  items = pre ++ Ref t :: post -> 4 + sizes pre = off ->
  exists k, field r off 1 = Some k /\ text_number r k t /\ (k = 0 <-> t = []).
Proof.
  intros W E H. pose proof (wrote_good _ _ _ _ _ W) as G. pose proof (wrote_data _ _ _ _ _ W) as D.
  pose proof (wrote_strings _ _ _ _ _ W) as S.
  rewrite E, formatted_app, formatted_cons in D. rewrite E, texts_app, texts_cons in S, G. subst off.
  rewrite (field_at r _ _ _ _ 1 D); [|rewrite len_formatted; reflexivity|apply len_bytes_of].
  destruct t as [|b t].
  - exists 0. split; [reflexivity|]. split; [left; auto|tauto].
  - exists (1 + len (texts pre)). split; [cbn [bytes_of little fold_right]; f_equal; lia|].
    split; [|split; [lia|discriminate]]. right. split; [lia|].
    cbn [texts_of app] in *. rewrite <- app_assoc in *. cbn [app] in *.
    apply Forall_app in G. destruct G as [G1 G2]. inversion G2 as [|? ? Gt G3]; subst.
    exists (texts pre), (0 :: terminated (texts post ++ more) ++ [0]).
    split; [lia|]. split; [exact G1|]. split; [exact Gt|]. split; [|eauto].
    rewrite S, encode_strings_some by (destruct (texts pre); discriminate).
    rewrite (terminated_app (texts pre)), (terminated_cons (b :: t)), <- !app_assoc. cbn [app]. rewrite <- ?app_assoc. reflexivity.
Qed.

Lemma read_text v ty items more r off t pre post : wrote v ty items more r ->
  items = pre ++ Ref t :: post -> 4 + sizes pre = off -> text_field r off t.
Proof. intros W E H. destruct (read_ref _ _ _ _ _ _ _ _ _ W E H) as [k [A [B _]]]. exists k. split; [exact A|exact B]. Qed.

Lemma read_raw v ty items more r pre l post : wrote v ty items more r ->
  items = pre ++ Raw l :: post ->
  exists a b, data r = a ++ l ++ b /\ len a = sizes pre /\ len b = sizes post.
Proof.
  intros W E. pose proof (wrote_data _ _ _ _ _ W) as D. rewrite E, formatted_app, formatted_cons in D.
  do 2 eexists. split; [exact D|]. split; apply len_formatted.
Qed.

Lemma read_nothing v ty items more r off w : wrote v ty items more r -> 4 + sizes items < off + w -> field r off w = None.
Proof. intros W H. apply field_out. unfold reaches. rewrite (wrote_size _ _ _ _ _ W). lia. Qed.

(* the item at an offset from the start of the items *)
Fixpoint item_at (off : N) (l : list item) : option (list item * item * list item) :=
  match l with
  | [] => None
  | i :: l => if off <? item_size i then (if off =? 0 then Some ([], i, l) else None)
              else match item_at (off - item_size i) l with
                   | Some (pre, j, post) => Some (i :: pre, j, post)
                   | None => None
                   end
  end.

Lemma item_at_split l : forall off pre i post, item_at off l = Some (pre, i, post) -> l = pre ++ i :: post /\ sizes pre = off.
Proof.
  induction l as [|j l IH]; intros off pre i post H; [discriminate|]. cbn [item_at] in H.
  destruct (N.ltb_spec off (item_size j)) as [L|L].
  - destruct (N.eqb_spec off 0); [|discriminate]. injection H as <- <- <-. auto.
  - destruct (item_at (off - item_size j) l) as [[[pre' j'] post']|] eqn:E; [|discriminate].
    injection H as <- <- <-. destruct (IH _ _ _ _ E) as [-> Hs]. split; [reflexivity|]. rewrite sizes_cons, Hs. lia.
Qed.

Lemma number_at v ty items more r off w x pre i post : wrote v ty items more r -> 4 <= off ->
  item_at (off - 4) items = Some (pre, i, post) -> number i = Some (w, x) -> field r off w = Some x.
Proof. intros W H A M. apply item_at_split in A. destruct A as [A S]. eapply read_number; eauto. lia. Qed.
Lemma text_at v ty items more r off t pre post : wrote v ty items more r -> 4 <= off ->
  item_at (off - 4) items = Some (pre, Ref t, post) -> text_field r off t.
Proof. intros W H A. apply item_at_split in A. destruct A as [A S]. eapply read_text; eauto. lia. Qed.

Lemma numbered_at v ty items more r off t pre post : wrote v ty items more r -> 4 <= off ->
  item_at (off - 4) items = Some (pre, Ref t, post) ->
  (t <> [] -> numbered r off t) /\ (t = [] -> forall t', ~ numbered r off t').
Proof.
  intros W H A. apply item_at_split in A. destruct A as [A S].
  destruct (read_ref _ _ _ _ _ off _ _ _ W A) as [k [F [T Z]]]; [lia|]. split.
  - intros N. exists k. split; [exact F|]. destruct T as [[T _]|[T1 T2]]; [tauto|]. split; [lia|exact T2].
  - intros N t' [k' [F' [P _]]]. apply Z in N. subst k. unfold field_is in F'. rewrite F in F'. injection F' as <-. lia.
Qed.

(* ------------------------------------------------------ the clauses of a decoder *)

Arguments item_at : simpl never.
Arguments sizes : simpl never.

Ltac num := eapply number_at; [eassumption|lia|reflexivity|reflexivity].
Ltac txt := eapply text_at; [eassumption|lia|reflexivity].
(* a condition on the version or on the length *)
Ltac cond :=
  unfold reaches;
  repeat match goal with W : wrote _ _ _ _ ?r |- context [len (data ?r)] => rewrite (wrote_size _ _ _ _ _ W) end;
  unfold sizes; cbn [map item_size total fold_right]; rewrite ?len_cons, ?len_nil; vlia.
Ltac absent := eapply read_nothing; [eassumption|first [reflexivity|cond]].
Ltac known :=
  unfold unless; match goal with |- context [if ?x =? ?u then _ else _] =>
    destruct (N.eqb_spec x u); [right; split; [right; subst; num|reflexivity]|left; eexists; split; [num|auto]] end.
Ltac wclause :=
  cbn; lazymatch goal with
  | |- field_is _ _ _ _ => num
  | |- text_field _ _ _ => txt
  | |- code_field _ _ _ _ _ _ => eexists; split; [num|reflexivity]
  | |- mapped_field _ _ _ _ _ => eexists; split; [num|reflexivity]
  | |- flags_field _ _ _ _ _ => eexists; split; [num|assumption]
  | |- when _ _ (Some _) => left; split; [cond|eexists; split; [reflexivity|wclause]]
  | |- when _ _ None => right; split; [cond|reflexivity]
  | |- if_there _ _ _ (Some _) => symmetry; num
  | |- if_there _ _ _ None => symmetry; absent
  | |- code_if_there _ _ _ _ _ (Some _) => unfold code_if_there; erewrite number_at; [reflexivity|eassumption|lia|reflexivity|reflexivity]
  | |- code_if_there _ _ _ _ _ None => unfold code_if_there; erewrite read_nothing; [reflexivity|eassumption|reflexivity]
  | |- if_there_but _ _ _ _ None => first [right; split; [left; absent|reflexivity]|known]
  | |- if_there_but _ _ _ _ _ => known
  | |- flags_if_there _ _ _ _ (Some _) => left; eexists; split; [eexists; split; [num|eassumption]|reflexivity]
  | |- flags_if_there _ _ _ _ None => right; split; [absent|reflexivity]
  | |- text_if_there _ _ (Some _) => left; eexists; split; [txt|reflexivity]
  | |- text_if_there _ _ None => right; split; [apply no_text_field; absent|reflexivity]
  | |- _ /\ _ => split; wclause
  | |- _ => try reflexivity
  end.

(* all version tests decided, impossible combinations gone *)
Ltac cases :=
  sinces; try (exfalso; vlia); cbn [given part app andb] in *.

Lemma dispatch_as {A} (f : A -> Structure) (o : out (res A)) x : o = Val (Ok x) -> map_ok f o = Val (Ok (f x)).
Proof. intros ->. reflexivity. Qed.

Ltac enter W := unfold dispatch; rewrite (wrote_info _ _ _ _ _ W); cbn [InfoType_from N.eqb Pos.eqb]; apply dispatch_as.

Lemma stored_uuid_at v u : len u = 16 ->
  exists b0 b1 b2 b3 b4 b5 b6 b7 b8 b9 b10 b11 b12 b13 b14 b15,
    stored_uuid v u = [b0; b1; b2; b3; b4; b5; b6; b7; b8; b9; b10; b11; b12; b13; b14; b15] /\
    (before_version v 2 6 -> u = [b0; b1; b2; b3; b4; b5; b6; b7; b8; b9; b10; b11; b12; b13; b14; b15]) /\
    (from_version v 2 6 -> u = [b3; b2; b1; b0; b5; b4; b7; b6; b8; b9; b10; b11; b12; b13; b14; b15]).
Proof.
  intros H. do 16 (destruct u as [|? u]; [unfold len in H; cbn in H; lia|]).
  destruct u as [|? u]; [|unfold len in H; cbn [List.length] in H; lia].
  cbn [stored_uuid]. destruct (since v 2 6) eqn:V; [apply since_iff in V|apply since_not in V];
    do 16 eexists; (split; [reflexivity|split; intros; first [reflexivity|vlia]]).
Qed.

(* a code or count that may send the reader to another field *)
Ltac choice :=
  eexists; split; [num|]; split;
  [intros HH; try (match goal with |- context [if ?x =? ?k then _ else _] => destruct (N.eqb_spec x k) end;
                   [exfalso; destruct HH; [vlia|contradiction]|]); reflexivity
  |intros HF HK; first [exfalso; vlia|subst; rewrite N.eqb_refl; wclause]].

(* the item with the number n, wherever it is *)
Ltac size_side := unfold sizes; cbn [map item_size total fold_right]; lia.
Ltac num_nth n :=
  match goal with W : wrote _ _ ?l _ _ |- _ =>
    let p := eval cbv [firstn] in (firstn n l) in
    eapply read_number with (pre := p); [exact W|reflexivity|size_side|reflexivity] end.
Ltac txt_nth n :=
  match goal with W : wrote _ _ ?l _ _ |- _ =>
    let p := eval cbv [firstn] in (firstn n l) in
    eapply read_text with (pre := p); [exact W|reflexivity|size_side] end.

Lemma sizes_u16 l : sizes (map U16 l) = 2 * len l.
Proof. induction l as [|x l IH]; [reflexivity|]. cbn [map]. rewrite sizes_cons, IH, len_cons. cbn [item_size]. lia. Qed.


Lemma reads_back c v r s ty items more : lays_out v r s ty items more -> wrote v ty items more r ->
  dispatch c r = Val (Ok s).
Proof.
  intros L W. pose proof (wrote_bytes _ _ _ _ _ W) as HB. pose proof (wrote_version _ _ _ _ _ W) as HV. subst v.
  pose proof (wrote_small _ _ _ _ _ W) as HS. pose proof (wrote_size _ _ _ _ _ W) as HL.
  destruct L.
  - (* BIOS *)
    enter W. apply Bios_ok.
    + unfold Bios_area. cases; cond.
    + cases; constructor; wclause.
  - (* system *)
    destruct (stored_uuid_at (version r) u H) as (b0 & b1 & b2 & b3 & b4 & b5 & b6 & b7 & b8 & b9 & b10 & b11 & b12 & b13 & b14 & b15 & E & U1 & U2).
    rewrite E in W. clear HS HL. enter W. apply System_ok.
    + unfold System_area. cases; cond.
    + cases; constructor; wclause;
        match goal with W : wrote _ _ (?x1 :: ?x2 :: ?x3 :: ?x4 :: Raw ?l :: ?post) _ _ |- _ =>
          destruct (read_raw _ _ _ _ _ [x1; x2; x3; x4] l post W eq_refl) as [a [b [D [A _]]]] end;
        exists b0, b1, b2, b3, b4, b5, b6, b7, b8, b9, b10, b11, b12, b13, b14, b15, a, b;
        (split; [exact D|split; [exact A|split; [exact U1|exact U2]]]).
  - (* baseboard *)
    rewrite sizes_app, sizes_u16 in HL. unfold sizes in HL. cbn [map item_size total fold_right] in HL.
    enter W. apply (BaseBoard_ok c r r); [left; split; [lia|reflexivity]|].
    constructor; cbn; try (left; split; [unfold reaches; lia|eexists; split; [reflexivity|]]); wclause.
  - (* enclosure *)
    assert (HN : field r 0x13 1 = Some n) by num. assert (HM : field r 0x14 1 = Some m) by num.
    unfold sizes in HS, HL. cbn [map item_size total fold_right] in HS, HL.
    assert (HR : record_bytes r = len recs) by (unfold record_bytes; rewrite HN, HM; nia).
    match type of W with wrote _ _ ?l _ _ =>
      destruct (read_raw _ _ _ _ _ (firstn 14 l) recs [Ref sku] W eq_refl) as [a [b [D [A B]]]] end.
    cbn in A.
    enter W. apply Enclosure_ok; [exact HB|lia| |].
    { intros _ [n' [m' [F1 [F2 F3]]]]. unfold field_is in *. rewrite HN in F1. rewrite HM in F2. injection F1 as <-. injection F2 as <-. lia. }
    constructor; cbn [enclosure_handle enclosure_manufacturer enclosure_chassis_lock enclosure_enclosure_type enclosure_version
      enclosure_serial_number enclosure_asset_tag_number enclosure_boot_up_state enclosure_power_supply_state enclosure_thermal_state
      enclosure_security_status enclosure_oem_defined enclosure_height enclosure_power_cords_number enclosure_contained_elements
      enclosure_sku_number]; rewrite ?HR; try (left; split; [unfold reaches; lia|eexists; split; [reflexivity|]]);
      try solve [wclause].
    + split; [exact HN|]. split; [exact HM|]. cbn [ce_chunks ce_after ce_count ce_record_length]. rewrite HR. split.
      * rewrite D, drop_app_exact by (rewrite A; reflexivity). rewrite take_app_exact; reflexivity.
      * rewrite drop_drop. replace (len recs + (21 - 4)) with (21 - 4 + len recs) by lia. reflexivity.
    + txt_nth 15%nat.
  - (* processor *)
    enter W. apply Processor_ok; [exact HB| |].
    + unfold Processor_area. cases; cond.
    + cases; constructor; wclause; choice.
  - (* cache *)
    enter W. apply Cache_ok; [exact HB|exact H| |].
    + unfold Cache_area. cases; cond.
    + cases; constructor; wclause; exists word; (split; [num|assumption]).
  - (* port connector *)
    enter W. apply PortConnector_ok; [cond|]. constructor; wclause.
  - (* slots *)
    enter W. apply SystemSlots_ok; [exact HB|].
    cases; (split; [unfold SystemSlots_length; cases; unfold length_ok; rewrite ?HL; unfold sizes; cbn [map item_size total fold_right]; try exact I; lia|]).
    + assert (HN : peer_count r = n) by (unfold peer_count; replace (field r 18 1) with (Some n) by (symmetry; num); reflexivity).
      constructor; try solve [wclause]; rewrite ?HN; cbn [slots_peer_devices slots_slot_information slots_slot_physical_width slots_slot_pitch slots_device_and_function_number option_map peer_chunks].
      * exists (unless 0xFF function). split; [wclause|reflexivity].
      * left. exists peers. split; [|reflexivity].
        match type of W with wrote _ _ ?l _ _ =>
          destruct (read_raw _ _ _ _ _ (firstn 13 l) peers [U8 gap; U8 inform; U8 pwidth; U16 pitch] W eq_refl) as [a [b [D [A B]]]] end.
        cbn in A. exists a, b. split; [exact D|]. split; [rewrite A; reflexivity|lia].
      * symmetry. num_nth 15%nat.
      * unfold code_if_there. replace (field r (21 + 5 * n) 1) with (Some pwidth) by (symmetry; num_nth 16%nat). reflexivity.
      * symmetry. num_nth 17%nat.
    + assert (HN : peer_count r = 0) by (unfold peer_count; replace (field r 18 1) with (@None N) by (symmetry; absent); reflexivity).
      constructor; try solve [wclause]; rewrite ?HN; try solve [wclause]; cbn [slots_peer_devices slots_slot_information slots_slot_physical_width slots_slot_pitch slots_device_and_function_number option_map peer_chunks].
      * exists (unless 0xFF function). split; [wclause|reflexivity].
      * right. split; [cond|reflexivity].
    + assert (HN : peer_count r = 0) by (unfold peer_count; replace (field r 18 1) with (@None N) by (symmetry; absent); reflexivity).
      constructor; try solve [wclause]; rewrite ?HN; try solve [wclause]; cbn [slots_peer_devices slots_slot_information slots_slot_physical_width slots_slot_pitch slots_device_and_function_number option_map peer_chunks].
      * exists None. split; [wclause|reflexivity].
      * right. split; [cond|reflexivity].
    + assert (HN : peer_count r = 0) by (unfold peer_count; replace (field r 18 1) with (@None N) by (symmetry; absent); reflexivity).
      constructor; try solve [wclause]; rewrite ?HN; try solve [wclause]; cbn [slots_peer_devices slots_slot_information slots_slot_physical_width slots_slot_pitch slots_device_and_function_number option_map peer_chunks].
      * exists None. split; [wclause|reflexivity].
      * right. split; [cond|reflexivity].
  - (* OEM strings *)
    enter W. reflexivity.
  - (* options *)
    enter W.
    assert (G : strings_of (strings r) more).
    { rewrite (wrote_strings _ _ _ _ _ W). apply encode_strings_of. apply (wrote_good _ _ _ _ _ W). }
    rewrite (options_eq c r _ G). replace (field r 4 1) with (Some (len more)) by (symmetry; num). rewrite N.eqb_refl. reflexivity.
  - (* language *)
    unfold sizes in HL. cbn [map item_size total fold_right] in HL.
    enter W. apply BiosLanguage_ok.
    + unfold BiosLanguage_area. cases; lia.
    + constructor; cbn; try reflexivity.
      * left. split; [exact H|]. eexists. split; [reflexivity|]. wclause.
      * intros _. num_nth 3%nat.
      * intros HH. vlia.
  - (* group *)
    unfold sizes in HL, HS. cbn [map item_size total fold_right] in HL, HS.
    enter W. apply group_ok; [apply (wrote_length _ _ _ _ _ W)|rewrite (wrote_length _ _ _ _ _ W); lia|].
    cbn [group_handle group_group_name group_items]. split; [reflexivity|]. split; [txt|].
    destruct (read_raw _ _ _ _ _ [Ref name] its [] W eq_refl) as [a [b [D [A B]]]]. cbn in A, B.
    rewrite D, drop_app_exact by (rewrite A; reflexivity). apply len_0 in B. rewrite B, app_nil_r. reflexivity.
  - (* event log *)
    enter W. apply SystemEventLog_ok; [exact HB|]. cases.
    + assert (HX : field r 0x15 1 = Some n) by num. assert (HY : field r 0x16 1 = Some size) by num.
      unfold sizes in HL, HS. cbn [map item_size total fold_right] in HL, HS. split; [|split].
      * split; [intros HH; vlia|]. intros _. exists n, size. split; [exact HX|]. split; [exact HY|lia].
      * unfold field_is. rewrite HY. intros [= HH]. lia.
      * constructor; try solve [wclause].
        -- exists m, address. split; [num|]. split; [num|reflexivity].
        -- left. split; [exists n, size; split; [exact HX|split; [exact HY|unfold reaches; lia]]|].
           eexists. split; [reflexivity|]. exists n. cbn [descriptors_size descriptors_data].
           split; [exact HX|]. split; [exact HY|].
           match type of W with wrote _ _ ?l _ _ =>
             destruct (read_raw _ _ _ _ _ (firstn 10 l) descs [] W eq_refl) as [a [b [D [A B]]]] end.
           exists a, b. split; [exact D|]. split; [rewrite A; reflexivity|exact H].
    + split; [|split].
      * split; [intros _; rewrite HL; reflexivity|intros HH; vlia].
      * unfold field_is. replace (field r 22 1) with (@None N) by (symmetry; absent). discriminate.
      * constructor; try solve [wclause].
        -- exists m, address. split; [num|]. split; [num|reflexivity].
        -- right. split; [|reflexivity]. intros [x [y [HX _]]]. unfold field_is in HX.
           replace (field r 21 1) with (@None N) in HX by (symmetry; absent). discriminate.
  - (* array *)
    enter W. apply array_ok; [exact H|].
    assert (HM : field r 7 4 = Some max) by (cases; num).
    cases; split.
    1: { intros _. split; [cond|]. intros _ _. cond. }
    2: { intros _. split; [cond|]. intros HH. vlia. }
    3: { intros _. split; [cond|]. intros HH. vlia. }
    all: constructor; try solve [wclause]; cbn [array_extended_maximum_capacity].
    + destruct (N.eqb_spec max 2147483648) as [->|K].
      * left. split; [assumption|]. split; [exact HM|wclause].
      * right. split; [|reflexivity]. intros [_ HH]. unfold field_is in HH. rewrite HM in HH. congruence.
    + right. split; [|reflexivity]. intros [HH _]. vlia.
    + right. split; [|reflexivity]. intros [HH _]. vlia.
  - (* device *)
    enter W. apply MemoryDevice_ok. cases; (split; [cond|]); constructor; try solve [wclause]; eexists; (split; [num|reflexivity]).
  - (* error *)
    enter W. apply MemoryError32_ok.
    split; [unfold MemoryError32_length; cases; unfold stated_ok; rewrite ?(wrote_length _ _ _ _ _ W), ?HL; first [exact I|reflexivity]|].
    constructor; wclause.
  - (* array mapped *)
    enter W. apply MemoryArrayMappedAddress_ok.
    cases; (split; [unfold MemoryArrayMappedAddress_length; cases; unfold stated_ok; rewrite ?(wrote_length _ _ _ _ _ W), ?HL; first [exact I|reflexivity]|]);
    constructor; wclause.
  - (* device mapped *)
    enter W. apply MemoryDeviceMappedAddress_ok.
    cases; (split; [unfold MemoryDeviceMappedAddress_length; cases; unfold stated_ok; rewrite ?(wrote_length _ _ _ _ _ W), ?HL; first [exact I|reflexivity]|]);
    constructor; wclause.
  - (* pointing device *)
    enter W. apply BuiltInPointingDevice_ok.
    split; [unfold BuiltInPointingDevice_length; cases; unfold stated_ok; rewrite ?(wrote_length _ _ _ _ _ W), ?HL; first [exact I|reflexivity]|].
    constructor; wclause.
  - (* battery *)
    enter W. apply PortableBattery_ok; [exact HB|].
    cases; (split; [unfold PortableBattery_length; cases; unfold stated_ok; rewrite ?(wrote_length _ _ _ _ _ W), ?HL; first [exact I|reflexivity]|]);
    constructor; try solve [wclause]; cbn [battery_manufacture_date battery_serial_number battery_device_chemistry battery_design_capacity].
    + destruct (numbered_at _ _ _ _ _ 6 date _ _ W ltac:(lia) eq_refl) as [P Q]. destruct date as [|b t].
      * right. split; [apply Q; reflexivity|]. left. exists sdate. split; [num|reflexivity].
      * left. eexists. split; [apply P; discriminate|reflexivity].
    + destruct (numbered_at _ _ _ _ _ 7 serial _ _ W ltac:(lia) eq_refl) as [P Q]. destruct serial as [|b t].
      * right. split; [apply Q; reflexivity|]. left. exists sserial. split; [num|reflexivity].
      * left. eexists. split; [apply P; discriminate|reflexivity].
    + exists chemistry. split; [num|]. destruct (N.eqb_spec chemistry 2) as [->|K].
      * left. exists schemistry. split; [reflexivity|]. split; [txt|reflexivity].
      * right. split; [left; exact K|reflexivity].
    + destruct (N.eqb_spec capacity 0) as [->|K]; [left; split; [num|reflexivity]|].
      right. exists capacity. split; [num|]. split; [exact K|]. left. exists multiplier. split; [num|reflexivity].
    + destruct (numbered_at _ _ _ _ _ 6 date _ _ W ltac:(lia) eq_refl) as [P Q]. destruct date as [|b t].
      * right. split; [apply Q; reflexivity|]. right. split; [absent|reflexivity].
      * left. eexists. split; [apply P; discriminate|reflexivity].
    + destruct (numbered_at _ _ _ _ _ 7 serial _ _ W ltac:(lia) eq_refl) as [P Q]. destruct serial as [|b t].
      * right. split; [apply Q; reflexivity|]. right. split; [absent|reflexivity].
      * left. eexists. split; [apply P; discriminate|reflexivity].
    + exists chemistry. split; [num|]. right. split; [|reflexivity]. right. apply no_text_field. absent.
    + destruct (N.eqb_spec capacity 0) as [->|K]; [left; split; [num|reflexivity]|].
      right. exists capacity. split; [num|]. split; [exact K|]. right. split; [absent|reflexivity].
  - (* other *)
    unfold dispatch. rewrite (wrote_info _ _ _ _ _ W). unfold InfoType_from.
    repeat match goal with |- context [if ?a =? ?b then _ else _] =>
      destruct (N.eqb_spec a b) as [HE|_]; [first [reflexivity|exfalso; apply H; rewrite HE; cbn; auto 25]|] end.
    reflexivity.
Qed.

(* ----------------------------------------------------------------- the table *)

Lemma read_back c v w rest s : written_ok w ->
  lays_out v (raw_of v (encoded w) rest) s (w_type w) (w_items w) (w_more w) ->
  dispatch c (raw_of v (encoded w) rest) = Val (Ok s).
Proof. intros H L. eapply reads_back; [exact L|]. apply raw_wrote, H. Qed.

Lemma shown_all c v rest ss ws : lays_out_table v rest ss ws -> Forall written_ok ws -> ends_last v ws ->
  Forall2 (fun r x => dispatch c r = Val x) (shown v (map encoded ws) rest) (map Ok ss).
Proof.
  induction 1 as [|s ss w ws L T IH]; intros F E; [constructor|].
  inversion F as [|? ? Fw F']; subst. cbn [map shown]. constructor; [apply read_back; assumption|].
  assert (E' : ends_last v ws).
  { intros M front w' back -> N. apply (E M (w :: front) w' back); [reflexivity|exact N]. }
  specialize (IH F' E'). change (e_type (encoded w)) with (w_type w).
  destruct ((3 <=? major v) && (w_type w =? 127)) eqn:Z; [|exact IH].
  inversion T as [|s' ss' w' ws' L' T' E1 E2]; subst; [constructor|].
  exfalso. apply (E ltac:(lia) [] w (w' :: ws')); [reflexivity|discriminate|lia].
Qed.

Lemma table_read_back c e rest ss ws :
  lays_out_table (ep_to_version e) rest ss ws -> Forall written_ok ws -> ends_last (ep_to_version e) ws ->
  ep_smbios_len e = len (table (map encoded ws)) -> all_bytes rest -> len (table (map encoded ws) ++ rest) + 260 <= 2 ^ 32 ->
  exists s', drains (next c) (structures e (table (map encoded ws) ++ rest)) (map Ok ss) s' /\ next c s' = Val (None, s').
Proof.
  intros L F E HL HB HS. apply drains_table; auto.
  - apply Forall_map. eapply Forall_impl; [|exact F]. exact encoded_ok.
  - apply all_bytes_app. split; [apply table_bytes, F|exact HB].
  - apply shown_all; assumption.
Qed.

Lemma written_strings v w rest : written_ok w -> exists s',
  drains (lift_next strings_next) (raw_strings (raw_of v (encoded w) rest)) (texts (w_items w) ++ w_more w) s'.
Proof.
  intros H. pose proof (raw_wrote v w rest H) as W. apply strings_of_drains.
  rewrite (wrote_strings _ _ _ _ _ W). apply encode_strings_of. apply (wrote_good _ _ _ _ _ W).
Qed.

Lemma unambiguous v rest ss1 ws1 ss2 ws2 :
  lays_out_table v rest ss1 ws1 -> Forall written_ok ws1 -> ends_last v ws1 ->
  lays_out_table v rest ss2 ws2 -> Forall written_ok ws2 -> ends_last v ws2 ->
  all_bytes rest -> len (table (map encoded ws1) ++ rest) + 260 <= 2 ^ 32 ->
  table (map encoded ws1) = table (map encoded ws2) -> ss1 = ss2.
Proof.
  intros L1 F1 E1 L2 F2 E2 HB HS ET.
  set (e := V3 {| v3_signature := []; v3_checksum := 0; v3_len := 0; v3_major := major v; v3_minor := minor v;
                  v3_docrev := 0; v3_revision := 0; v3_reserved := 0;
                  v3_smbios_len_max := len (table (map encoded ws1)); v3_smbios_address := 0 |}).
  set (c := {| overflow_checks := true; flat_memory := false; pointer_width := W64 |}).
  assert (EV : ep_to_version e = v) by (destruct v; reflexivity).
  destruct (table_read_back c e rest ss1 ws1) as [s1 [D1 _]]; rewrite ?EV; auto.
  destruct (table_read_back c e rest ss2 ws2) as [s2 [D2 _]]; rewrite ?EV; auto; [cbn; rewrite ET; reflexivity|rewrite <- ET; exact HS|].
  rewrite <- ET in D2. destruct (drains_fun _ _ _ _ _ _ D1 D2) as [E _].
  revert E. generalize ss2. clear. induction ss1 as [|x l IH]; intros [|y l2] E; try discriminate; [reflexivity|].
  injection E as -> E. f_equal. apply IH, E.
Qed.

(* no type 127 before the last *)
Lemma ends_last_dec ws (n : nat) : n = pred (length ws) ->
  forallb (fun w => negb (w_type w =? 127)) (firstn n ws) = true ->
  forall front w back, ws = front ++ w :: back -> back <> [] -> w_type w <> 127.
Proof.
  intros -> H front w back -> N. rewrite forallb_forall in H. specialize (H w).
  destruct (w_type w =? 127) eqn:E; [|lia]. exfalso. cut (negb true = true); [discriminate|]. apply H.
  rewrite firstn_app. apply in_or_app. right.
  destruct back as [|b back]; [congruence|]. rewrite app_length. cbn [length].
  replace (pred (length front + S (S (length back))) - length front)%nat with (S (length back)) by lia. left. reflexivity.
Qed.
