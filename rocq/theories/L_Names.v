(* Lemmas for property C75: names of codes. *)
From Coq Require Import String Ascii.
From Coq Require Import ZArith Lia ZifyBool ZifyNat ZifyN.
From Verif Require Import Base G_Enums M_Raw M_Entry M_Enclosure M_Processor M_Cache M_SystemEventLog M_PortableBattery
  M_Display S_Enums S_Text S_TextValues S_Hardware S_EventLog S_Names L_Base L_Enums L_Text L_Texts L_Texts2 L_Cache L_EventLog L_Hardware.
Local Open Scope string_scope.
Local Open Scope N_scope.
Ltac Zify.zify_post_hook ::= Z.div_mod_to_equations.

(* writing the pieces down *)
Definition render1 (p : piece) : string :=
  match p with
  | Text s => s
  | Numeral base n => if base =? 10 then show_dec n else if base =? 16 then show_hex n else show_bin n
  | Padded base w n => pad w (if base =? 10 then show_dec n else show_hex n)
  end.
Fixpoint render (ps : list piece) : string := match ps with [] => "" | p :: ps => render1 p ++ render ps end.
Definition good1 (p : piece) : bool :=
  match p with
  | Text _ => true
  | Numeral base n => (((base =? 10) || (base =? 16)) && (n <? 2 ^ 64)) || ((base =? 2) && (n <? 2 ^ 64))
  | Padded base w n => ((base =? 10) || (base =? 16)) && (n <? 2 ^ 64)
  end.
Lemma render_written ps : forallb good1 ps = true -> written ps (render ps).
Proof.
  induction ps as [|p ps IH]; [reflexivity|]. cbn [forallb render written]. intros H. apply andb_true_iff in H. destruct H as [H1 H2].
  exists (render1 p), (render ps). split; [reflexivity|]. split; [apply IH, H2|]. destruct p as [s|base n|base w n]; cbn [render1 good1] in *.
  - reflexivity.
  - destruct (N.eqb_spec base 10) as [->|]; [apply show_dec_numeral, dec_room; lia|].
    destruct (N.eqb_spec base 16) as [->|]; [apply show_hex_numeral, hex_room; lia|].
    destruct (N.eqb_spec base 2) as [->|]; [apply show_bin_numeral; lia|]. discriminate.
  - destruct (N.eqb_spec base 10) as [->|]; [apply pad_padded; [lia|]; apply show_dec_numeral, dec_room; lia|].
    destruct (N.eqb_spec base 16) as [->|]; [apply pad_padded; [lia|]; apply show_hex_numeral, hex_room; lia|]. discriminate.
Qed.
Lemma render_app a b : render (a ++ b)%list = render a ++ render b.
Proof. induction a as [|p a IH]; [reflexivity|]. cbn [render app]. rewrite IH. symmetry. apply append_assoc. Qed.

(* a check that a text cannot be what the pieces say *)
Definition is_text (p : piece) : bool := match p with Text _ => true | _ => false end.
Definition unlike (ps : list piece) (t : string) : bool :=
  if forallb is_text ps then negb (t =? render ps)%string
  else match ps with Text s :: _ => negb (prefix s t) | _ => false end.
Lemma prefix_append s t : prefix s (s ++ t) = true.
Proof.
  induction s as [|c s IH]; [destruct t; reflexivity|]. cbn [append prefix].
  destruct (Ascii.ascii_dec c c) as [_|n]; [exact IH|destruct n; reflexivity].
Qed.
Lemma written_text ps : forall t, forallb is_text ps = true -> written ps t -> t = render ps.
Proof.
  induction ps as [|p ps IH]; intros t H W; [exact W|]. cbn [forallb written render] in *.
  apply andb_true_iff in H. destruct H as [H1 H2]. destruct W as [a [b [-> [W E]]]]. destruct p; try discriminate.
  subst a. rewrite (IH b H2 W). reflexivity.
Qed.
Lemma unlike_not ps t : unlike ps t = true -> ~ written ps t.
Proof.
  unfold unlike. destruct (forallb is_text ps) eqn:A.
  - intros H W. rewrite (written_text ps t A W), String.eqb_refl in H. discriminate.
  - destruct ps as [|[s|base n|base w n] ps]; try discriminate. intros H [a [b [-> [_ ->]]]].
    rewrite prefix_append in H. discriminate.
Qed.

(* ------------------------------------------------------- codes of one byte *)

Definition right (e : named_code) (k : N) : bool :=
  forallb good1 (as_shown e k) && (text_shown e k =? render (as_shown e k))%string.
Definition right_byte (e : named_code) : bool :=
  if codes_below e <=? 256 then forallb (right e) (below (N.to_nat (codes_below e))) else false.
Lemma right_written e k : right e k = true -> written (as_shown e k) (text_shown e k).
Proof.
  intros H. apply andb_true_iff in H. destruct H as [G E]. apply String.eqb_eq in E. rewrite E. apply render_written, G.
Qed.
Lemma right_bytes e : right_byte e = true -> forall k, k < codes_below e -> written (as_shown e k) (text_shown e k).
Proof.
  unfold right_byte. destruct (codes_below e <=? 256); [|discriminate]. intros H k Hk. apply right_written.
  rewrite forallb_forall in H. apply H, below_in. lia.
Qed.

(* ------------------------------------------------------ processor families *)

Definition family_entry (alt : bool) : named_code :=
  {| enumeration := "ProcessorFamily"; codes_below := 65536;
     standard := by_name ProcessorFamily_names ProcessorFamily_unnamed; instead := ProcessorFamily_instead;
     text_shown := fun k => ProcessorFamily_display alt (ProcessorFamily_from k) |}.
Lemma named_outside {A} (l : list (N * A)) k : forallb (fun p => negb (fst p =? k)) l = true -> named l k = None.
Proof.
  induction l as [|[a x] l IH]; [reflexivity|]. cbn [forallb fst named]. intros H. apply andb_true_iff in H. destruct H as [H1 H2].
  destruct (N.eqb_spec k a) as [->|]; [rewrite N.eqb_refl in H1; discriminate|]. apply IH, H2.
Qed.
Lemma named_between {A} (l : list (N * A)) lo hi k : forallb (fun p => (fst p <? lo) || (hi <? fst p)) l = true ->
  lo <= k -> k <= hi -> named l k = None.
Proof.
  intros H H1 H2. apply named_outside. rewrite forallb_forall in *. intros p I. specialize (H p I). lia.
Qed.
Lemma family_right alt k : k < 65536 -> written (as_shown (family_entry alt) k) (text_shown (family_entry alt) k).
Proof.
  intros Hk. assert (C : (0x203 <= k <= 0xFFFD) \/ In k family_small).
  { unfold family_small. destruct (N.ltb_spec k 0x203); [right; apply in_or_app; left; apply (below_in 0x203); exact H|].
    destruct (N.leb_spec k 0xFFFD); [left; lia|right; apply in_or_app; right].
    assert (k = 0xFFFE \/ k = 0xFFFF) as [->| ->] by lia; [left|right; left]; reflexivity. }
  destruct C as [C|C].
  - cbn [text_shown family_entry]. fold (family_text alt k). rewrite family_available by lia. unfold as_shown, by_name. cbn [instead standard family_entry].
    rewrite (named_between ProcessorFamily_instead 0x203 0xFFFD) by (first [lia|vm_compute; reflexivity]).
    unfold by_name. rewrite (named_between ProcessorFamily_names 0x203 0xFFFD) by (first [lia|vm_compute; reflexivity]).
    unfold ProcessorFamily_unnamed. destruct (N.eqb_spec k 0); [lia|]. destruct (N.eqb_spec k 0xFF); [lia|]. destruct (N.eqb_spec k 0xFFFF); [lia|].
    cbn [orb]. exists "Available 0x", (show_hex k). split; [reflexivity|]. split; [|reflexivity].
    exists (show_hex k), "". split; [symmetry; apply append_nil|]. split; [reflexivity|]. apply show_hex_numeral, hex_room. lia.
  - apply right_written. assert (A : forallb (right (family_entry alt)) family_small = true) by (destruct alt; vm_compute; reflexivity).
    rewrite forallb_forall in A. apply A, C.
Qed.

(* ------------------------------------------------- system management types *)

Lemma management_right k : k < 2 ^ 32 ->
  written (by_name SystemManagementType_names SystemManagementType_unnamed k) (SystemManagementType_display (SystemManagementType_from k)).
Proof.
  intros Hk. change (2 ^ 32) with 4294967296 in Hk.
  rewrite management_meaning by exact Hk.
  assert (E : by_name SystemManagementType_names SystemManagementType_unnamed k =
    match named SystemManagementType_codes k with
    | Some x => [Text (SystemManagementType_display x)]
    | None => SystemManagementType_unnamed k end).
  { unfold by_name. cbn [named SystemManagementType_names SystemManagementType_codes].
    repeat match goal with |- context [k =? ?a] => destruct (N.eqb_spec k a); [reflexivity|] end. reflexivity. }
  rewrite E. unfold meaning. destruct (named SystemManagementType_codes k) as [x|].
  - exists (SystemManagementType_display x), "". split; [symmetry; apply append_nil|]. split; reflexivity.
  - assert (G : SystemManagementType_display (SystemManagementType_other k) = render (SystemManagementType_unnamed k)).
    { unfold SystemManagementType_other, SystemManagementType_unnamed.
      repeat match goal with |- context [k <? ?a] => destruct (k <? a) end;
        cbn [SystemManagementType_display render render1]; rewrite ?append_nil; reflexivity. }
    rewrite G. apply render_written. unfold SystemManagementType_unnamed.
    repeat match goal with |- context [k <? ?a] => destruct (k <? a) end; cbn [forallb good1 N.eqb Pos.eqb orb andb];
      rewrite ?andb_true_r, ?orb_false_r; cbn [andb orb]; try (apply N.ltb_lt; change (2 ^ 64) with 18446744073709551616; lia); reflexivity.
Qed.

(* --------------------------------------------------------------------- all *)

Lemma management_entry e : standard e = by_name SystemManagementType_names SystemManagementType_unnamed -> instead e = [] ->
  codes_below e = 2 ^ 32 -> text_shown e = (fun k => SystemManagementType_display (SystemManagementType_from k)) ->
  forall k, k < codes_below e -> written (as_shown e k) (text_shown e k).
Proof.
  intros H1 H2 H3 H4 k Hk. unfold as_shown. rewrite H1, H2, H4. change (by_name [] ?f k) with (f k). apply management_right. rewrite <- H3. exact Hk.
Qed.
Lemma all_right alt : Forall (fun e => forall k, k < codes_below e -> written (as_shown e k) (text_shown e k)) (named_codes alt).
Proof.
  unfold named_codes.
  repeat (apply Forall_cons; [first [apply right_bytes; destruct alt; vm_compute; reflexivity
                                    |apply (family_right alt)|apply management_entry; reflexivity]|]). apply Forall_nil.
Qed.
Lemma names_right alt e k : In e (named_codes alt) -> k < codes_below e -> written (as_shown e k) (text_shown e k).
Proof. intros I. pose proof (all_right alt) as F. rewrite Forall_forall in F. apply F, I. Qed.

(* the deviations are real *)
Lemma named_in {A} (l : list (N * A)) k : In k (map fst l) <-> exists x, named l k = Some x.
Proof.
  induction l as [|[a x] l IH]; cbn [map fst In named]; [split; [intros []|intros [? ?]; discriminate]|].
  destruct (N.eqb_spec k a) as [->|n]; [split; [eauto|left; reflexivity]|]. rewrite <- IH. split; [intros [E|I]; [congruence|exact I]|auto].
Qed.
Lemma deviations_real alt e k : In e (named_codes alt) -> In k (map fst (instead e)) -> ~ written (standard e k) (text_shown e k).
Proof.
  intros I K. apply unlike_not.
  assert (A : forallb (fun e => forallb (fun k => unlike (standard e k) (text_shown e k)) (map fst (instead e))) (named_codes alt) = true)
    by (destruct alt; vm_compute; reflexivity).
  rewrite forallb_forall in A. specialize (A e I). cbv beta in A. rewrite forallb_forall in A. apply A, K.
Qed.
Lemma names_exact alt e k : In e (named_codes alt) -> k < codes_below e ->
  (written (standard e k) (text_shown e k) <-> ~ In k (map fst (instead e))).
Proof.
  intros I Hk. split; [intros W K; exact (deviations_real alt e k I K W)|]. intros K.
  pose proof (names_right alt e k I Hk) as W. unfold as_shown, by_name in W.
  destruct (named (instead e) k) as [s|] eqn:E; [|exact W]. destruct K. apply named_in. eauto.
Qed.

(* ------------------------------------------------------------------- caches *)

Lemma written_one s : written [Text s] s.
Proof. exists s, "". split; [symmetry; apply append_nil|]. split; reflexivity. Qed.
Lemma cache_right alt w x : CacheConfiguration_from w = Val x -> cache_names alt w x.
Proof.
  intros H. apply configuration_from in H. destruct H as [A [_ [B [_ C]]]]. unfold cache_names.
  assert (W1 : w mod 8 < N.of_nat 8) by lia. assert (W2 : w / 32 mod 4 < N.of_nat 4) by lia. assert (W3 : w / 256 mod 4 < N.of_nat 4) by lia.
  revert A B C W1 W2 W3. generalize (w mod 8) (w / 32 mod 4) (w / 256 mod 4). intros a b d A B C W1 W2 W3.
  apply below_in in W1, W2, W3. split; [|split].
  - revert W1 A. generalize (level x). intros y W1 A. cbn in W1.
    repeat (destruct W1 as [<-|W1]; [injection A as <-; destruct alt; apply written_one|]). destruct W1.
  - revert W2 B. generalize (location x). intros y W2 B. cbn in W2.
    repeat (destruct W2 as [<-|W2]; [injection B as <-; destruct alt; apply written_one|]). destruct W2.
  - revert W3 C. generalize (operational_mode x). intros y W3 C. cbn in W3.
    repeat (destruct W3 as [<-|W3]; [injection C as <-; destruct alt; apply written_one|]). destruct W3.
Qed.

(* ------------------------------------------------------------ joining texts *)

Lemma written_app a b s t : written a s -> written b t -> written (a ++ b)%list (s ++ t).
Proof.
  revert s. induction a as [|p a IH]; intros s A B; cbn [written app] in *; [subst s; exact B|].
  destruct A as [x [y [-> [A P]]]]. exists x, (y ++ t). split; [apply append_assoc|]. split; [apply IH; assumption|exact P].
Qed.
Lemma byte_name e alt k : In e (named_codes alt) -> codes_below e = 256 -> instead e = [] -> k < 256 -> written (standard e k) (text_shown e k).
Proof. intros I L N Hk. apply (names_exact alt e k I); [lia|]. rewrite N. intros []. Qed.

Lemma board_name alt k : k < 256 -> written (by_name BoardType_names undefined k) (BoardType_display alt (BoardType_from k)).
Proof.
  intros Hk. refine (byte_name {| enumeration := "BoardType"; text_shown := fun k => BoardType_display alt (BoardType_from k);
    standard := by_name BoardType_names undefined; instead := []; codes_below := 256 |} alt k _ eq_refl eq_refl Hk).
  unfold named_codes. cbn [In]. tauto.
Qed.
Lemma type_name alt k : k < 256 -> written (by_name InfoType_names InfoType_unknown k) (InfoType_display alt (InfoType_from k)).
Proof.
  intros Hk. refine (byte_name {| enumeration := "InfoType"; text_shown := fun k => InfoType_display alt (InfoType_from k);
    standard := by_name InfoType_names InfoType_unknown; instead := []; codes_below := 256 |} alt k _ eq_refl eq_refl Hk).
  left. reflexivity.
Qed.
Lemma type_label k : k < 256 -> written (InfoType_label k) (InfoType_debug (InfoType_from k)).
Proof.
  intros Hk. refine (byte_name {| enumeration := "InfoType (in error messages)"; text_shown := fun k => InfoType_debug (InfoType_from k);
    standard := InfoType_label; instead := []; codes_below := 256 |} true k _ eq_refl eq_refl Hk).
  right. left. reflexivity.
Qed.

Lemma element_words t a b : t < 256 -> a < 256 -> b < 256 ->
  written (contained_element t a b)
    (ContainedElement_display {| cel_type := ContainedElementType_from t; cel_minimum := a; cel_maximum := b |}).
Proof.
  intros Ht Ha Hb. unfold contained_element, ContainedElement_display. cbn [cel_type cel_minimum cel_maximum].
  apply written_app.
  - assert (E : ContainedElementType_from t = if t <? 128 then CE_BoardType (BoardType_from t) else CE_InfoType (InfoType_from (t - 128))).
    { assert (A : forallb (fun t => (N.land t 0x7F =? (if t <? 128 then t else t - 128)) && Bool.eqb (N.land t 0x80 =? 0) (t <? 128)) (below 256) = true)
        by (vm_compute; reflexivity).
      rewrite forallb_forall in A. specialize (A t (below_in 256 t Ht)). cbv beta in A. apply andb_true_iff in A. destruct A as [A B].
      apply N.eqb_eq in A. apply Bool.eqb_prop in B. unfold ContainedElementType_from. rewrite A, B. destruct (t <? 128); reflexivity. }
    rewrite E. destruct (N.ltb_spec t 128); cbn [ContainedElementType_display].
    + apply (written_app [_]); [apply written_one|apply board_name; lia].
    + apply (written_app [_]); [apply written_one|apply type_name; lia].
  - change (" (" ++ show_dec a ++ "-" ++ show_dec b ++ ")") with (render [Text " ("; Numeral 10 a; Text "-"; Numeral 10 b; Text ")"]).
    apply render_written. cbn [forallb good1 N.eqb Pos.eqb orb andb]. change (2 ^ 64) with 18446744073709551616. lia.
Qed.

(* ------------------------------------------------------------ access methods *)

Lemma access_right alt m a : m < 256 -> a < 2 ^ 32 ->
  written (access_words alt m a) (AccessMethod_display alt (AccessMethod_new m a)).
Proof.
  intros Hm Ha. change (2 ^ 32) with 4294967296 in Ha. rewrite access_new by exact Hm.
  assert (G : AccessMethod_display alt (access_means m a) = render (access_words alt m a)).
  { unfold access_means, access_words.
    repeat match goal with |- context [m =? ?n] => destruct (m =? n) end; try destruct (m <? 0x80); destruct alt;
      cbn [AccessMethod_display render render1 app N.eqb Pos.eqb]; rewrite ?append_nil; reflexivity. }
  rewrite G. apply render_written. unfold access_words.
  repeat match goal with |- context [m =? ?n] => destruct (m =? n) end; try destruct (m <? 0x80); destruct alt;
    cbn [forallb good1 N.eqb Pos.eqb orb andb app]; try reflexivity; change (2 ^ 64) with 18446744073709551616; rewrite ?andb_true_r;
    repeat (apply andb_true_iff; split); try reflexivity; apply N.ltb_lt; lia.
Qed.

(* ------------------------------------------------------------------- errors *)

Lemma entry_error_right e : entry_error_byte e -> written (entry_error_words e) (InvalidEntryPointError_display e).
Proof.
  intros H. assert (G : InvalidEntryPointError_display e = render (entry_error_words e))
    by (destruct e; cbn [InvalidEntryPointError_display entry_error_words render render1 N.eqb Pos.eqb]; rewrite ?append_nil; reflexivity).
  rewrite G. apply render_written. destruct e; cbn [entry_error_words forallb good1 N.eqb Pos.eqb orb andb entry_error_byte] in *;
    change (2 ^ 64) with 18446744073709551616; lia.
Qed.
Lemma structure_error_right k e : structure_error_small e -> k < 256 ->
  (forall i, error_type e = Some i -> i = InfoType_from k) ->
  written (structure_error_words k e) (MalformedStructureError_display e).
Proof.
  intros H Hk HI. destruct e as [o l|o|i h n| |i h spec n]; cbn [structure_error_small structure_error_words MalformedStructureError_display error_type] in *.
  - change (written [Text "Structure at offset "; Numeral 10 o; Text " with length "; Numeral 10 l; Text " extends beyond SMBIOS"]
      (render [Text "Structure at offset "; Numeral 10 o; Text " with length "; Numeral 10 l; Text " extends beyond SMBIOS"])).
    apply render_written. cbn [forallb good1 N.eqb Pos.eqb orb andb]. lia.
  - change (written [Text "Structure at offset "; Numeral 10 o; Text " with unterminated strings"]
      (render [Text "Structure at offset "; Numeral 10 o; Text " with unterminated strings"])).
    apply render_written. cbn [forallb good1 N.eqb Pos.eqb orb andb]. lia.
  - rewrite (HI i eq_refl). apply (written_app [_]); [apply written_one|]. apply written_app; [apply type_label, Hk|].
    rewrite <- (append_nil (show_dec n)).
    change (written [Text " with handle "; Numeral 10 h; Text " has invalid string index "; Numeral 10 n]
      (render [Text " with handle "; Numeral 10 h; Text " has invalid string index "; Numeral 10 n])).
    apply render_written. cbn [forallb good1 N.eqb Pos.eqb orb andb]. lia.
  - apply written_one.
  - rewrite (HI i eq_refl). apply (written_app [_]); [apply written_one|]. apply written_app; [apply type_label, Hk|].
    change (written [Text " with handle "; Numeral 10 h; Text " should be "; Text spec; Numeral 10 n; Text " bytes"]
      (render [Text " with handle "; Numeral 10 h; Text " should be "; Text spec; Numeral 10 n; Text " bytes"])).
    apply render_written. cbn [forallb good1 N.eqb Pos.eqb orb andb]. lia.
Qed.
