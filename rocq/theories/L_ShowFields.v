(* Lemmas for C87: the developer text of a value shows each field with its value. *)
From Coq Require Import String Ascii.
From Coq Require Import ZArith Lia ZifyBool ZifyNat ZifyN.
From Verif Require Import Base G_Enums M_Raw M_Entry M_Bios M_System M_BaseBoard M_Enclosure M_Processor M_Cache
  M_PortConnector M_SystemSlots M_Strings M_GroupAssociations M_SystemEventLog M_PhysicalMemoryArray M_MemoryDevice
  M_Memory M_PortableBattery M_Iter M_Flags M_Display M_Debug M_Eq G_Eq M_Show G_Show
  Spec S_Text S_Iter S_Show S_Flags S_ShowFields L_Base L_Frame L_Same L_Text L_Flags L_Show L_GShow L_Fits L_Shown.
Local Open Scope string_scope.
Local Open Scope N_scope.
Ltac Zify.zify_post_hook ::= Z.div_mod_to_equations.

(* ------------------------------------------------------------------------ layout *)

Lemma margin_indent d : margin d = indent d.
Proof.
  unfold indent. induction d as [|d IH]; [reflexivity|]. replace (4 * S d)%nat with (S (S (S (S (4 * d))))) by lia.
  cbn [margin spaces]. rewrite IH. reflexivity.
Qed.
Lemma block_enclosed alt d opening gap closing l : block alt d opening gap closing l = enclosed alt d opening gap closing l.
Proof.
  unfold block, enclosed. rewrite listed_join. destruct alt; [|reflexivity].
  rewrite app_assoc, several_app by discriminate. cbn [several_lines app map fold_right]. rewrite !append_assoc, !map_map, !margin_indent.
  assert (E : map (fun s => (indent (S d) ++ s ++ ",") ++ newline) l = map (fun s => indent (S d) ++ s ++ "," ++ newline) l)
    by (apply map_ext; intros s; rewrite !append_assoc; reflexivity).
  rewrite E. reflexivity.
Qed.

(* ---------------------------------------------------------------------- leaves *)

Section Texts.
Context (u : characters) (wide : bool).

Lemma shown_int d w n : Forall fits_type (num w n) -> shows u wide d (As_number n) (print u wide d (show_int n)).
Proof.
  intros H. constructor. cbn [print show_int join]. apply show_dec_numeral. apply num_fits in H. eapply N.lt_trans; [exact H|reflexivity].
Qed.
Lemma shown_str d t : Forall fits_type (str t) -> shows u wide d (As_text t) (print u wide d (Quoted t)).
Proof. intros H. constructor. apply literal_str. inversion H; assumption. Qed.
Lemma shown_bool d b : shows u wide d (As_bool b) (print u wide d (show_bool b)).
Proof. destruct b; constructor. Qed.
Lemma shown_bytes d l : all_bytes l -> shows u wide d (As_bytes l) (print u wide d (show_bytes l)).
Proof.
  intros H. destruct l as [|b l]; [constructor|].
  assert (E : print u wide d (show_bytes (b :: l)) = enclosed wide d "[" "" "]" (map show_dec (b :: l)))
    by (rewrite <- block_enclosed; unfold show_bytes; cbn [map print]; rewrite map_map; reflexivity).
  rewrite E. clear E. constructor; [discriminate|]. induction H as [|n m HB _ IH]; [constructor|]. cbn [map]. constructor; [|exact IH].
  apply show_dec_numeral. unfold is_byte in HB. eapply N.lt_trans; [exact HB|reflexivity].
Qed.
Lemma shown_slice d l : Forall fits_type (slice l) -> shows u wide d (As_bytes l) (print u wide d (show_bytes l)).
Proof. intros H. apply shown_bytes, slice_fits, H. Qed.
Lemma hex_byte_digits b : b < 256 -> hex_byte b (digit_low (b / 16) ++ digit_low (b mod 16)).
Proof.
  intros H. assert (F : forall d : N, d < 16 -> digit_value (ascii_of_N (if d <? 10 then 48 + d else 87 + d)) = Some d /\
    ~ 65 <= N_of_ascii (ascii_of_N (if d <? 10 then 48 + d else 87 + d)) <= 90).
  { intros d HD. unfold digit_value. rewrite N_ascii_embedding by (destruct (N.ltb_spec d 10); lia). destruct (N.ltb_spec d 10).
    - split; [|lia]. replace ((48 <=? 48 + d) && (48 + d <=? 57))%bool with true by lia. f_equal. lia.
    - split; [|lia]. replace ((48 <=? 87 + d) && (87 + d <=? 57))%bool with false by lia. replace ((65 <=? 87 + d) && (87 + d <=? 70))%bool with false by lia.
      replace ((97 <=? 87 + d) && (87 + d <=? 102))%bool with true by lia. f_equal. lia. }
  destruct (F (b / 16) ltac:(lia)) as [A1 A2], (F (b mod 16) ltac:(lia)) as [B1 B2].
  unfold digit_low. cbn [append]. split.
  - split; [split; [discriminate|]|left; reflexivity]. cbn [read_from]. rewrite A1, B1.
    replace (b / 16 <? 16) with true by lia. replace (b mod 16 <? 16) with true by lia. f_equal. lia.
  - unfold lower_case. cbn [list_ascii_of_string]. repeat constructor; assumption.
Qed.
Definition hexes (b : N) : string := digit_low (b / 16) ++ digit_low (b mod 16).
Lemma hyphenated_step p b l : hyphenated p (b :: l) =
  (match p with 4%nat | 6%nat | 8%nat | 10%nat => "-" | _ => "" end) ++ hexes b ++ hyphenated (S p) l.
Proof. cbn [hyphenated]. unfold hexes. rewrite (append_assoc (digit_low _)). reflexivity. Qed.
Opaque hexes.
Lemma hyphenated_all a b c d e f g h i j k m n o p q :
  hyphenated 0 [a; b; c; d; e; f; g; h; i; j; k; m; n; o; p; q] =
  hexes a ++ hexes b ++ hexes c ++ hexes d ++ "-" ++ hexes e ++ hexes f ++ "-" ++ hexes g ++ hexes h ++ "-" ++ hexes i ++ hexes j ++ "-" ++
  hexes k ++ hexes m ++ hexes n ++ hexes o ++ hexes p ++ hexes q.
Proof. rewrite !hyphenated_step. cbn [hyphenated append]. rewrite append_nil. reflexivity. Qed.
Lemma shown_uuid d l : all_bytes l -> length l = 16%nat -> shows u wide d (As_uuid l) (print u wide d (show_uuid l)).
Proof.
  intros H L. do 16 (destruct l as [|? l]; [discriminate L|]). destruct l; [|discriminate L]. clear L.
  cbn [print show_uuid join]. rewrite hyphenated_all. apply shows_uuid.
  repeat match goal with H : all_bytes (_ :: _) |- _ => apply Forall_cons_iff in H; destruct H | H : Forall is_byte (_ :: _) |- _ => apply Forall_cons_iff in H; destruct H end.
  do 16 (apply Forall2_cons; [apply hex_byte_digits; assumption|]). constructor.
Qed.
Lemma shown_enum d t : shows u wide d (As_enum t) (print u wide d t).
Proof. constructor. Qed.
Lemma shown_word d name : shows u wide d (As_word name) (print u wide d (show_unit name)).
Proof. constructor. Qed.

(* ------------------------------------------------------------------- composites *)

Lemma shown_option {A} d (f : A -> shown_as) tr ps o : (forall v, Forall fits_type (ps v) -> shows u wide (S d) (f v) (print u wide (S d) (tr v))) ->
  Forall fits_type (option_parts ps o) -> shows u wide d (As_option (option_map f o)) (print u wide d (show_option tr o)).
Proof.
  intros F H. destruct o as [v|]; [|constructor]. cbn [option_map show_option print map]. rewrite block_enclosed.
  apply (shows_some u wide d (f v) (print u wide (S d) (tr v))). apply F. inversion H; assumption.
Qed.
Lemma shown_tuple d name l ts : Forall2 (fun v t => shows u wide (S d) v (print u wide (S d) t)) l ts ->
  shows u wide d (As_tuple name l) (print u wide d (Call name ts)).
Proof.
  intros H. cbn [print]. rewrite block_enclosed. constructor.
  induction H as [|v t l ts H _ IH]; [constructor|]. cbn [map]. constructor; assumption.
Qed.
Lemma shown_one d name v t : shows u wide (S d) v (print u wide (S d) t) -> shows u wide d (As_tuple name [v]) (print u wide d (Call name [t])).
Proof. intros H. apply shown_tuple. repeat constructor. exact H. Qed.
Lemma shown_wrapped d name w n : Forall fits_type (num w n) -> shows u wide d (As_wrapped name n) (print u wide d (show_wrapped name n)).
Proof. intros H. apply shown_one. eapply shown_int, H. Qed.
Lemma shown_fields d name fs ts : Forall2 (fun f t => fst f = fst t /\ shows u wide (S d) (snd f) (print u wide (S d) (snd t))) fs ts ->
  shows u wide d (As_struct name fs) (print u wide d (Fields name ts)).
Proof.
  intros H. pose (ss := map (fun t : string * tree => print u wide (S d) (snd t)) ts).
  assert (E : map (fun p => fst p ++ ": " ++ snd p) (combine (map fst fs) ss) =
    map (fun f : string * tree => match f with (field, x) => field ++ ": " ++ print u wide (S d) x end) ts).
  { unfold ss. induction H as [|f t fs ts [HN HV] _ IH]; [reflexivity|]. cbn [map combine]. rewrite IH. destruct f, t. cbn [fst snd] in *. subst. reflexivity. }
  cbn [print]. rewrite block_enclosed, <- E. constructor. clear E. unfold ss.
  induction H as [|f t fs ts [HN HV] _ IH]; [constructor|]. cbn [map]. constructor; assumption.
Qed.

(* ------------------------------------------------------------------------- flags *)

Lemma barred_join l : barred l = join " | " l.
Proof. induction l as [|s [|t l] IH]; [reflexivity..|]. cbn [barred join]. f_equal. f_equal. exact IH. Qed.
Lemma iter_filter x : forall names rem, NoDup (map fst names) -> (forall b, In b (map fst names) -> N.testbit rem b = N.testbit x b) ->
  iter_names_loop x rem (bits_of_names names) = bits_of_names (filter (fun p => N.testbit x (fst p)) names).
Proof.
  induction names as [|[b n] names IH]; intros rem ND H; [reflexivity|]. cbn [bits_of_names map fst snd iter_names_loop filter] in *.
  apply NoDup_cons_iff in ND. destruct ND as [NI ND]. rewrite contains_bit, intersects_bit, (H b (or_introl eq_refl)), andb_diag.
  destruct (N.testbit x b); cbn [map fst snd]; [f_equal|]; apply IH; try assumption; intros i I; [|apply H; right; exact I].
  rewrite N.ldiff_spec, (H i (or_intror I)). rewrite N.pow2_bits_false by (intros ->; contradiction). apply andb_true_r.
Qed.
Lemma named_bits_of names i : N.testbit (fold_right N.lor 0 (map snd (bits_of_names names))) i = existsb (N.eqb i) (map fst names).
Proof.
  induction names as [|[b n] names IH]; [apply N.bits_0|]. cbn [bits_of_names map fst snd fold_right existsb].
  rewrite N.lor_spec, N.pow2_bits_eqb, (N.eqb_sym b i). f_equal. exact IH.
Qed.
Lemma filter_exists x names i : existsb (N.eqb i) (map fst (filter (fun p : N * string => N.testbit x (fst p)) names)) =
  (N.testbit x i && existsb (N.eqb i) (map fst names))%bool.
Proof.
  induction names as [|[b n] names IH]; [rewrite andb_false_r; reflexivity|]. cbn [filter map fst existsb].
  destruct (N.testbit x b) eqn:T; cbn [map fst existsb]; rewrite IH; destruct (N.eqb_spec i b) as [->|]; rewrite ?T; try reflexivity.
  all: cbn [orb]; destruct (N.testbit x i); reflexivity.
Qed.
Lemma flag_words_text cs names x : x < 2 ^ 64 -> iter_names cs x = bits_of_names (filter (fun p => N.testbit x (fst p)) names) ->
  flags_text names x (join " | " (flag_words cs x)).
Proof.
  intros HX E. unfold flag_words. destruct (N.eqb_spec x 0) as [->|NZ]; [left; split; reflexivity|]. right. split; [exact NZ|].
  unfold is_empty at 1. rewrite (proj2 (N.eqb_neq x 0) NZ). cbv zeta. exists (N.ldiff x (covered cs x)). eexists.
  split; [|split].
  - rewrite <- barred_join. f_equal. f_equal. rewrite E. unfold bits_of_names. rewrite map_map. reflexivity.
  - intros i. rewrite N.ldiff_spec. unfold covered. rewrite E, named_bits_of, filter_exists. destruct (N.testbit x i); reflexivity.
  - unfold is_empty. destruct (N.eqb_spec (N.ldiff x (covered cs x)) 0) as [Z|Z]; [left; split; [exact Z|reflexivity]|right; split; [exact Z|]].
    eexists. split; [|reflexivity]. apply hex_low_numeral. pose proof (ldiff_le x (covered cs x)). lia.
Qed.
Lemma shown_words d type cs names x : x < 2 ^ 64 -> iter_names cs x = bits_of_names (filter (fun p => N.testbit x (fst p)) names) ->
  shows u wide d (As_flags type names x) (print u wide d (show_flags type cs x)).
Proof. intros HX E. unfold show_flags. cbn [print map]. rewrite block_enclosed. constructor. apply flag_words_text; assumption. Qed.
Lemma shown_flags d type cs names w x : In (cs, names) flag_types -> Forall fits_type (num w x) ->
  shows u wide d (As_flags type names x) (print u wide d (show_flags type cs x)).
Proof.
  intros I H. apply shown_words; [eapply num_fits, H|]. destruct (all_tables_ok cs names I) as [HC [_ ND]].
  transitivity (iter_names_loop x x (bits_of_names names)); [|apply iter_filter; auto].
  destruct HC as [->|[n ->]]; [reflexivity|]. unfold iter_names. apply iter_names_zero.
Qed.
(* the codes of a processor's status are written as single bits *)
Definition pair_dec (a b : string * N) : {a = b} + {a <> b}.
Proof. decide equality; [apply N.eq_dec|apply string_dec]. Defined.
Definition same_words (x : N) : bool :=
  if list_eq_dec pair_dec (iter_names ProcessorStatus_constants x) (bits_of_names (filter (fun p => N.testbit x (fst p)) status_bits))
  then true else false.
Lemma status_words x : x < 256 -> iter_names ProcessorStatus_constants x = bits_of_names (filter (fun p => N.testbit x (fst p)) status_bits).
Proof.
  intros H. assert (F : forallb same_words (map N.of_nat (seq 0 256)) = true) by (vm_compute; reflexivity).
  rewrite forallb_forall in F. specialize (F x). unfold same_words in F.
  destruct (list_eq_dec pair_dec _ _) as [E|_] in F; [exact E|]. assert (false = true) by (apply F; apply in_map_iff; exists (N.to_nat x); split; [lia|apply in_seq; lia]).
  discriminate.
Qed.
Lemma shown_status d x : Forall fits_type (num U8 x) ->
  shows u wide d (As_flags "ProcessorStatus" status_bits x) (print u wide d (show_flags "ProcessorStatus" ProcessorStatus_constants x)).
Proof. intros H. apply shown_words; [eapply num_fits, H|]. apply status_words. inversion H; assumption. Qed.
(* ------------------------------------------------------------------- the types *)

Create HintDb shown_types discriminated.
#[local] Hint Constants Opaque : shown_types.
Ltac leaf H :=
  cbv beta; lazymatch goal with
  | |- shows _ _ _ (As_number _) _ => exact (shown_int _ _ _ H)
  | |- shows _ _ _ (As_text _) _ => exact (shown_str _ _ H)
  | |- shows _ _ _ (As_bool _) _ => apply shown_bool
  | |- shows _ _ _ (As_bytes _) _ => exact (shown_slice _ _ H)
  | |- shows _ _ _ (As_flags "ProcessorStatus" _ _) _ => exact (shown_status _ _ H)
  | |- shows _ _ _ (As_flags _ _ _) _ => eapply shown_flags; [|exact H]; unfold flag_types; cbn [In]; tauto
  | |- shows _ _ _ (As_enum _) _ => apply shown_enum
  | |- shows _ _ _ (As_wrapped _ _) _ => exact (shown_wrapped _ _ _ _ H)
  | |- shows _ _ _ (As_word _) _ => apply shown_word
  | |- shows _ _ _ (As_option _) _ => eapply shown_option; [|exact H]; let v := fresh "v" in let K := fresh "K" in intros v K; leaf K
  | |- _ => solve [eauto 2 with shown_types nocore]
  end.
Ltac each H tac :=
  lazymatch type of H with
  | Forall _ (_ ++ _) => apply Forall_app in H; let K := fresh "K" in destruct H as [K H]; apply Forall2_cons; [tac K|each H tac]
  | _ => apply Forall2_cons; [tac H|apply Forall2_nil]
  end.
Ltac named_field H := split; [reflexivity|cbn [fst snd]; leaf H].
Ltac value H :=
  lazymatch goal with
  | |- shows _ _ _ (As_struct _ _) _ => apply shown_fields; each H named_field
  | |- shows _ _ _ (As_tuple _ _) _ => apply shown_tuple; each H leaf
  | |- _ => leaf H
  end.

Lemma SmbiosVersion_shown d x : Forall fits_type (SmbiosVersion_parts x) -> shows u wide d (SmbiosVersion_contents x) (print u wide d (SmbiosVersion_tree x)).
Proof. intros H. unfold SmbiosVersion_parts in H. unfold SmbiosVersion_contents, SmbiosVersion_tree. value H. Qed.
#[local] Hint Resolve SmbiosVersion_shown : shown_types.
Lemma RawStructure_shown d x : Forall fits_type (RawStructure_parts x) -> shows u wide d (RawStructure_contents x) (print u wide d (RawStructure_tree x)).
Proof. intros H. unfold RawStructure_parts in H. unfold RawStructure_contents, RawStructure_tree. value H. Qed.
#[local] Hint Resolve RawStructure_shown : shown_types.
Lemma StructureStrings_shown d x : Forall fits_type (StructureStrings_parts x) -> shows u wide d (StructureStrings_contents x) (print u wide d (StructureStrings_tree x)).
Proof. intros H. unfold StructureStrings_parts in H. unfold StructureStrings_contents, StructureStrings_tree. value H. Qed.
#[local] Hint Resolve StructureStrings_shown : shown_types.
Lemma BiosRevision_shown d x : Forall fits_type (Revision_parts x) -> shows u wide d (revision_contents "BiosRevision" x) (print u wide d (BiosRevision_tree x)).
Proof. intros H. unfold Revision_parts in H. unfold revision_contents, BiosRevision_tree. value H. Qed.
Lemma FirmwareRevision_shown d x : Forall fits_type (Revision_parts x) -> shows u wide d (revision_contents "FirmwareRevision" x) (print u wide d (FirmwareRevision_tree x)).
Proof. intros H. unfold Revision_parts in H. unfold revision_contents, FirmwareRevision_tree. value H. Qed.
#[local] Hint Resolve BiosRevision_shown FirmwareRevision_shown : shown_types.
Lemma RomSize_shown d x : Forall fits_type (RomSize_parts x) -> shows u wide d (RomSize_contents x) (print u wide d (RomSize_tree x)).
Proof. intros H. unfold RomSize_parts in H. unfold RomSize_contents, RomSize_tree. value H. Qed.
#[local] Hint Resolve RomSize_shown : shown_types.
Lemma Bios_shown d x : Forall fits_type (Bios_parts x) -> shows u wide d (Bios_contents x) (print u wide d (Bios_tree x)).
Proof. intros H. unfold Bios_parts in H. unfold Bios_contents, Bios_tree. value H. Qed.
#[local] Hint Resolve Bios_shown : shown_types.
Lemma chunks_shown d l n : all_bytes l -> n < 2 ^ 64 -> shows u wide d (chunks_contents l n) (print u wide d (show_chunks l n)).
Proof.
  intros H N. apply shown_fields. repeat apply Forall2_cons; try apply Forall2_nil; (split; [reflexivity|]); cbn [fst snd].
  - apply shown_bytes, H.
  - apply (shown_int _ U64). repeat constructor. exact N.
Qed.
Lemma ContainedElements_shown d c x : Forall fits_type (elements x) -> shows u wide d (ContainedElements_contents c x) (print u wide d (ContainedElements_tree c x)).
Proof.
  intros H. apply Forall_inv in H. destruct H as [H1 [H2 H3]].
  apply shown_fields. repeat apply Forall2_cons; try apply Forall2_nil; (split; [reflexivity|]); cbn [fst snd].
  - apply chunks_shown; [exact H1|]. unfold ContainedElements_chunk_size. destruct ((ce_count x =? 0) || (ce_record_length x =? 0))%bool; [|eapply N.lt_trans; [exact H3|reflexivity]]. destruct c as [[] [] []]; reflexivity.
  - apply (shown_int _ U8). repeat constructor. exact H2.
  - apply (shown_int _ U8). repeat constructor. exact H3.
Qed.
Lemma PeerDevices_shown d x : Forall fits_type (peers x) -> shows u wide d (PeerDevices_contents x) (print u wide d (PeerDevices_tree x)).
Proof. intros H. apply Forall_inv in H. apply shown_one, chunks_shown; [exact H|reflexivity]. Qed.
Lemma EventLogTypeDescriptors_shown d x : Forall fits_type (descriptors x) ->
  shows u wide d (EventLogTypeDescriptors_contents x) (print u wide d (EventLogTypeDescriptors_tree x)).
Proof. intros H. apply Forall_inv in H. destruct H as [H1 H2]. apply shown_one, chunks_shown; [exact H1|exact H2]. Qed.
#[local] Hint Resolve ContainedElements_shown PeerDevices_shown EventLogTypeDescriptors_shown : shown_types.
Lemma System_shown d x : match system_uuid x with Some l => length l = 16%nat | None => True end ->
  Forall fits_type (System_parts x) -> shows u wide d (System_contents x) (print u wide d (System_tree x)).
Proof.
  intros L H. unfold System_parts in H. unfold System_contents, System_tree. apply shown_fields.
  do 5 (apply Forall_app in H; let K := fresh "K" in destruct H as [K H]; apply Forall2_cons; [named_field K|]).
  apply Forall_app in H. destruct H as [K4 H]. apply Forall2_cons; [|each H named_field].
  split; [reflexivity|]. cbn [fst snd]. destruct (system_uuid x) as [l|]; [|constructor].
  cbn [option_map show_option print map]. rewrite block_enclosed.
  apply (shows_some u wide (S d) (As_uuid l) (print u wide (S (S d)) (show_uuid l))). apply shown_uuid; [|exact L].
  apply Forall_inv_tail in K4. exact (slice_fits _ K4).
Qed.
Lemma BaseBoard_shown d x : Forall fits_type (BaseBoard_parts x) -> shows u wide d (BaseBoard_contents x) (print u wide d (BaseBoard_tree x)).
Proof. intros H. unfold BaseBoard_parts in H. unfold BaseBoard_contents, BaseBoard_tree. value H. Qed.
#[local] Hint Resolve BaseBoard_shown : shown_types.
Lemma ContainedElementType_shown d x : Forall fits_type (ContainedElementType_parts x) -> shows u wide d (ContainedElementType_contents x) (print u wide d (ContainedElementType_tree x)).
Proof. intros H. destruct x; unfold ContainedElementType_parts in H; unfold ContainedElementType_contents, ContainedElementType_tree; apply Forall_inv_tail in H; value H. Qed.
#[local] Hint Resolve ContainedElementType_shown : shown_types.
Lemma ContainedElement_shown d x : Forall fits_type (ContainedElement_parts x) -> shows u wide d (ContainedElement_contents x) (print u wide d (ContainedElement_tree x)).
Proof. intros H. unfold ContainedElement_parts in H. unfold ContainedElement_contents, ContainedElement_tree. value H. Qed.
#[local] Hint Resolve ContainedElement_shown : shown_types.
Lemma Enclosure_shown d (c : cfg) x : Forall fits_type (Enclosure_parts x) -> shows u wide d (Enclosure_contents c x) (print u wide d (Enclosure_tree c x)).
Proof. intros H. unfold Enclosure_parts in H. unfold Enclosure_contents, Enclosure_tree. value H. Qed.
#[local] Hint Resolve Enclosure_shown : shown_types.
Lemma Voltage_shown d x : Forall fits_type (Voltage_parts x) -> shows u wide d (Voltage_contents x) (print u wide d (Voltage_tree x)).
Proof. intros H. destruct x; unfold Voltage_parts in H; unfold Voltage_contents, Voltage_tree; apply Forall_inv_tail in H; value H. Qed.
#[local] Hint Resolve Voltage_shown : shown_types.
Lemma Processor_shown d x : Forall fits_type (Processor_parts x) -> shows u wide d (Processor_contents x) (print u wide d (Processor_tree x)).
Proof. intros H. unfold Processor_parts in H. unfold Processor_contents, Processor_tree. value H. Qed.
#[local] Hint Resolve Processor_shown : shown_types.
Lemma CacheConfiguration_shown d x : Forall fits_type (CacheConfiguration_parts x) -> shows u wide d (CacheConfiguration_contents x) (print u wide d (CacheConfiguration_tree x)).
Proof. intros H. unfold CacheConfiguration_parts in H. unfold CacheConfiguration_contents, CacheConfiguration_tree. value H. Qed.
#[local] Hint Resolve CacheConfiguration_shown : shown_types.
Lemma CacheSize_shown d x : Forall fits_type (CacheSize_parts x) -> shows u wide d (CacheSize_contents x) (print u wide d (CacheSize_tree x)).
Proof. intros H. destruct x; unfold CacheSize_parts in H; unfold CacheSize_contents, CacheSize_tree; apply Forall_inv_tail in H; value H. Qed.
#[local] Hint Resolve CacheSize_shown : shown_types.
Lemma CacheSize2_shown d x : Forall fits_type (CacheSize2_parts x) -> shows u wide d (CacheSize2_contents x) (print u wide d (CacheSize2_tree x)).
Proof. intros H. destruct x; unfold CacheSize2_parts in H; unfold CacheSize2_contents, CacheSize2_tree; apply Forall_inv_tail in H; value H. Qed.
#[local] Hint Resolve CacheSize2_shown : shown_types.
Lemma Cache_shown d x : Forall fits_type (Cache_parts x) -> shows u wide d (Cache_contents x) (print u wide d (Cache_tree x)).
Proof. intros H. unfold Cache_parts in H. unfold Cache_contents, Cache_tree. value H. Qed.
#[local] Hint Resolve Cache_shown : shown_types.
Lemma PortConnector_shown d x : Forall fits_type (PortConnector_parts x) -> shows u wide d (PortConnector_contents x) (print u wide d (PortConnector_tree x)).
Proof. intros H. unfold PortConnector_parts in H. unfold PortConnector_contents, PortConnector_tree. value H. Qed.
#[local] Hint Resolve PortConnector_shown : shown_types.
Lemma DeviceAndFunctionNumber_shown d x : Forall fits_type (DeviceAndFunctionNumber_parts x) -> shows u wide d (DeviceAndFunctionNumber_contents x) (print u wide d (DeviceAndFunctionNumber_tree x)).
Proof. intros H. unfold DeviceAndFunctionNumber_parts in H. unfold DeviceAndFunctionNumber_contents, DeviceAndFunctionNumber_tree. value H. Qed.
#[local] Hint Resolve DeviceAndFunctionNumber_shown : shown_types.
Lemma Device_shown d x : Forall fits_type (Device_parts x) -> shows u wide d (Device_contents x) (print u wide d (Device_tree x)).
Proof. intros H. unfold Device_parts in H. unfold Device_contents, Device_tree. value H. Qed.
#[local] Hint Resolve Device_shown : shown_types.
Lemma SystemSlots_shown d x : Forall fits_type (SystemSlots_parts x) -> shows u wide d (SystemSlots_contents x) (print u wide d (SystemSlots_tree x)).
Proof. intros H. unfold SystemSlots_parts in H. unfold SystemSlots_contents, SystemSlots_tree. value H. Qed.
#[local] Hint Resolve SystemSlots_shown : shown_types.
Lemma OemStrings_shown d x : Forall fits_type (OemStrings_parts x) -> shows u wide d (OemStrings_contents x) (print u wide d (OemStrings_tree x)).
Proof. intros H. unfold OemStrings_parts in H. unfold OemStrings_contents, OemStrings_tree. value H. Qed.
#[local] Hint Resolve OemStrings_shown : shown_types.
Lemma SystemConfigurationOptions_shown d x : Forall fits_type (SystemConfigurationOptions_parts x) -> shows u wide d (SystemConfigurationOptions_contents x) (print u wide d (SystemConfigurationOptions_tree x)).
Proof. intros H. unfold SystemConfigurationOptions_parts in H. unfold SystemConfigurationOptions_contents, SystemConfigurationOptions_tree. value H. Qed.
#[local] Hint Resolve SystemConfigurationOptions_shown : shown_types.
Lemma InstallableLanguages_shown d x : Forall fits_type (InstallableLanguages_parts x) -> shows u wide d (InstallableLanguages_contents x) (print u wide d (InstallableLanguages_tree x)).
Proof. intros H. unfold InstallableLanguages_parts in H. unfold InstallableLanguages_contents, InstallableLanguages_tree. value H. Qed.
#[local] Hint Resolve InstallableLanguages_shown : shown_types.
Lemma BiosLanguage_shown d x : Forall fits_type (BiosLanguage_parts x) -> shows u wide d (BiosLanguage_contents x) (print u wide d (BiosLanguage_tree x)).
Proof. intros H. unfold BiosLanguage_parts in H. unfold BiosLanguage_contents, BiosLanguage_tree. value H. Qed.
#[local] Hint Resolve BiosLanguage_shown : shown_types.
Lemma GroupItems_shown d x : Forall fits_type (GroupItems_parts x) -> shows u wide d (GroupItems_contents x) (print u wide d (GroupItems_tree x)).
Proof. intros H. unfold GroupItems_parts in H. unfold GroupItems_contents, GroupItems_tree. value H. Qed.
#[local] Hint Resolve GroupItems_shown : shown_types.
Lemma GroupItem_shown d x : Forall fits_type (GroupItem_parts x) -> shows u wide d (GroupItem_contents x) (print u wide d (GroupItem_tree x)).
Proof. intros H. unfold GroupItem_parts in H. unfold GroupItem_contents, GroupItem_tree. value H. Qed.
#[local] Hint Resolve GroupItem_shown : shown_types.
Lemma GroupAssociations_shown d x : Forall fits_type (GroupAssociations_parts x) -> shows u wide d (GroupAssociations_contents x) (print u wide d (GroupAssociations_tree x)).
Proof. intros H. unfold GroupAssociations_parts in H. unfold GroupAssociations_contents, GroupAssociations_tree. value H. Qed.
#[local] Hint Resolve GroupAssociations_shown : shown_types.
Lemma SystemManagementType_shown d x : Forall fits_type (SystemManagementType_parts x) -> shows u wide d (SystemManagementType_contents x) (print u wide d (SystemManagementType_tree x)).
Proof. intros H. destruct x; unfold SystemManagementType_parts in H; unfold SystemManagementType_contents, SystemManagementType_tree; apply Forall_inv_tail in H; value H. Qed.
#[local] Hint Resolve SystemManagementType_shown : shown_types.
Lemma VariableDataFormatType_shown d x : Forall fits_type (VariableDataFormatType_parts x) -> shows u wide d (VariableDataFormatType_contents x) (print u wide d (VariableDataFormatType_tree x)).
Proof. intros H. destruct x; unfold VariableDataFormatType_parts in H; unfold VariableDataFormatType_contents, VariableDataFormatType_tree; apply Forall_inv_tail in H; value H. Qed.
#[local] Hint Resolve VariableDataFormatType_shown : shown_types.
Lemma EventLogTypeDescriptor_shown d x : Forall fits_type (EventLogTypeDescriptor_parts x) -> shows u wide d (EventLogTypeDescriptor_contents x) (print u wide d (EventLogTypeDescriptor_tree x)).
Proof. intros H. unfold EventLogTypeDescriptor_parts in H. unfold EventLogTypeDescriptor_contents, EventLogTypeDescriptor_tree. value H. Qed.
#[local] Hint Resolve EventLogTypeDescriptor_shown : shown_types.
Lemma AccessMethod_shown d x : Forall fits_type (AccessMethod_parts x) -> shows u wide d (AccessMethod_contents x) (print u wide d (AccessMethod_tree x)).
Proof. intros H. destruct x; unfold AccessMethod_parts in H; unfold AccessMethod_contents, AccessMethod_tree; apply Forall_inv_tail in H; value H. Qed.
#[local] Hint Resolve AccessMethod_shown : shown_types.
Lemma SystemEventLog_shown d x : Forall fits_type (SystemEventLog_parts x) -> shows u wide d (SystemEventLog_contents x) (print u wide d (SystemEventLog_tree x)).
Proof. intros H. unfold SystemEventLog_parts in H. unfold SystemEventLog_contents, SystemEventLog_tree. value H. Qed.
#[local] Hint Resolve SystemEventLog_shown : shown_types.
Lemma PhysicalMemoryArray_shown d x : Forall fits_type (PhysicalMemoryArray_parts x) -> shows u wide d (PhysicalMemoryArray_contents x) (print u wide d (PhysicalMemoryArray_tree x)).
Proof. intros H. unfold PhysicalMemoryArray_parts in H. unfold PhysicalMemoryArray_contents, PhysicalMemoryArray_tree. value H. Qed.
#[local] Hint Resolve PhysicalMemoryArray_shown : shown_types.
Lemma MemoryDevice_shown d x : Forall fits_type (MemoryDevice_parts x) -> shows u wide d (MemoryDevice_contents x) (print u wide d (MemoryDevice_tree x)).
Proof. intros H. unfold MemoryDevice_parts in H. unfold MemoryDevice_contents, MemoryDevice_tree. value H. Qed.
#[local] Hint Resolve MemoryDevice_shown : shown_types.
Lemma MemoryError32_shown d x : Forall fits_type (MemoryError32_parts x) -> shows u wide d (MemoryError32_contents x) (print u wide d (MemoryError32_tree x)).
Proof. intros H. unfold MemoryError32_parts in H. unfold MemoryError32_contents, MemoryError32_tree. value H. Qed.
#[local] Hint Resolve MemoryError32_shown : shown_types.
Lemma MemoryArrayMappedAddress_shown d x : Forall fits_type (MemoryArrayMappedAddress_parts x) -> shows u wide d (MemoryArrayMappedAddress_contents x) (print u wide d (MemoryArrayMappedAddress_tree x)).
Proof. intros H. unfold MemoryArrayMappedAddress_parts in H. unfold MemoryArrayMappedAddress_contents, MemoryArrayMappedAddress_tree. value H. Qed.
#[local] Hint Resolve MemoryArrayMappedAddress_shown : shown_types.
Lemma MemoryDeviceMappedAddress_shown d x : Forall fits_type (MemoryDeviceMappedAddress_parts x) -> shows u wide d (MemoryDeviceMappedAddress_contents x) (print u wide d (MemoryDeviceMappedAddress_tree x)).
Proof. intros H. unfold MemoryDeviceMappedAddress_parts in H. unfold MemoryDeviceMappedAddress_contents, MemoryDeviceMappedAddress_tree. value H. Qed.
#[local] Hint Resolve MemoryDeviceMappedAddress_shown : shown_types.
Lemma BuiltInPointingDevice_shown d x : Forall fits_type (BuiltInPointingDevice_parts x) -> shows u wide d (BuiltInPointingDevice_contents x) (print u wide d (BuiltInPointingDevice_tree x)).
Proof. intros H. unfold BuiltInPointingDevice_parts in H. unfold BuiltInPointingDevice_contents, BuiltInPointingDevice_tree. value H. Qed.
#[local] Hint Resolve BuiltInPointingDevice_shown : shown_types.
Lemma ManufactureDate_shown d x : Forall fits_type (ManufactureDate_parts x) -> shows u wide d (ManufactureDate_contents x) (print u wide d (ManufactureDate_tree x)).
Proof. intros H. destruct x; unfold ManufactureDate_parts in H; unfold ManufactureDate_contents, ManufactureDate_tree; apply Forall_inv_tail in H; value H. Qed.
#[local] Hint Resolve ManufactureDate_shown : shown_types.
Lemma SerialNumber_shown d x : Forall fits_type (SerialNumber_parts x) -> shows u wide d (SerialNumber_contents x) (print u wide d (SerialNumber_tree x)).
Proof. intros H. destruct x; unfold SerialNumber_parts in H; unfold SerialNumber_contents, SerialNumber_tree; apply Forall_inv_tail in H; value H. Qed.
#[local] Hint Resolve SerialNumber_shown : shown_types.
Lemma DesignCapacity_shown d x : Forall fits_type (DesignCapacity_parts x) -> shows u wide d (DesignCapacity_contents x) (print u wide d (DesignCapacity_tree x)).
Proof. intros H. destruct x; unfold DesignCapacity_parts in H; unfold DesignCapacity_contents, DesignCapacity_tree; apply Forall_inv_tail in H; value H. Qed.
#[local] Hint Resolve DesignCapacity_shown : shown_types.
Lemma DeviceChemistry_shown d x : Forall fits_type (DeviceChemistry_parts x) -> shows u wide d (DeviceChemistry_contents x) (print u wide d (DeviceChemistry_tree x)).
Proof. intros H. destruct x; unfold DeviceChemistry_parts in H; unfold DeviceChemistry_contents, DeviceChemistry_tree; apply Forall_inv_tail in H; value H. Qed.
#[local] Hint Resolve DeviceChemistry_shown : shown_types.
Lemma PortableBattery_shown d x : Forall fits_type (PortableBattery_parts x) -> shows u wide d (PortableBattery_contents x) (print u wide d (PortableBattery_tree x)).
Proof. intros H. unfold PortableBattery_parts in H. unfold PortableBattery_contents, PortableBattery_tree. value H. Qed.
#[local] Hint Resolve PortableBattery_shown : shown_types.
Lemma Structures_shown d x : Forall fits_type (Structures_parts x) -> shows u wide d (Structures_contents x) (print u wide d (Structures_tree x)).
Proof. intros H. unfold Structures_parts in H. unfold Structures_contents, Structures_tree. value H. Qed.
#[local] Hint Resolve Structures_shown : shown_types.
Lemma EntryPointV2_shown d x : Forall fits_type (EntryPointV2_parts x) -> shows u wide d (EntryPointV2_contents x) (print u wide d (EntryPointV2_tree x)).
Proof. intros H. unfold EntryPointV2_parts in H. unfold EntryPointV2_contents, EntryPointV2_tree. value H. Qed.
#[local] Hint Resolve EntryPointV2_shown : shown_types.
Lemma EntryPointV3_shown d x : Forall fits_type (EntryPointV3_parts x) -> shows u wide d (EntryPointV3_contents x) (print u wide d (EntryPointV3_tree x)).
Proof. intros H. unfold EntryPointV3_parts in H. unfold EntryPointV3_contents, EntryPointV3_tree. value H. Qed.
#[local] Hint Resolve EntryPointV3_shown : shown_types.
Lemma EntryPoint_shown d x : Forall fits_type (EntryPoint_parts x) -> shows u wide d (EntryPoint_contents x) (print u wide d (EntryPoint_tree x)).
Proof. intros H. destruct x; unfold EntryPoint_parts in H; unfold EntryPoint_contents, EntryPoint_tree; apply Forall_inv_tail in H; value H. Qed.
#[local] Hint Resolve EntryPoint_shown : shown_types.
Lemma Structure_shown d c x : uuid_whole x -> Forall fits_type (Structure_parts x) -> shows u wide d (Structure_contents c x) (print u wide d (Structure_tree c x)).
Proof.
  intros L. destruct x as [s|s|s|s|s|s|s|s|s|s|s|s|s|s|s|s|s|s|s|s|s]; intros H; apply Forall_inv_tail in H; apply shown_one.
  - exact (Bios_shown _ s H).
  - exact (System_shown _ s L H).
  - exact (BaseBoard_shown _ s H).
  - exact (Enclosure_shown _ c s H).
  - exact (Processor_shown _ s H).
  - exact (Cache_shown _ s H).
  - exact (PortConnector_shown _ s H).
  - exact (SystemSlots_shown _ s H).
  - exact (OemStrings_shown _ s H).
  - exact (SystemConfigurationOptions_shown _ s H).
  - exact (BiosLanguage_shown _ s H).
  - exact (GroupAssociations_shown _ s H).
  - exact (SystemEventLog_shown _ s H).
  - exact (MemoryDevice_shown _ s H).
  - exact (MemoryError32_shown _ s H).
  - exact (MemoryArrayMappedAddress_shown _ s H).
  - exact (MemoryDeviceMappedAddress_shown _ s H).
  - exact (BuiltInPointingDevice_shown _ s H).
  - exact (PortableBattery_shown _ s H).
  - exact (PhysicalMemoryArray_shown _ s H).
  - exact (RawStructure_shown _ s H).
Qed.
End Texts.

(* ------------------------------------------------------------ decoded structures *)

Lemma packed_long c n r p : read_packed c n r = Val p -> len p = n.
Proof.
  unfold read_packed. destruct (N.leb_spec n (len (data r))); [intros [= <-]; rewrite len_take; lia|].
  destruct (_ && _)%bool eqn:E; [|discriminate]. apply andb_true_iff in E. destruct E as [_ E]. intros [= <-]. rewrite len_take. lia.
Qed.
Lemma uuid_long p v : 20 <= len p -> length (decode_by_smbios_version (take 16 (drop 4 p)) v) = 16%nat.
Proof.
  intros H. assert (L : length (take 16 (drop 4 p)) = 16%nat).
  { assert (E : len (take 16 (drop 4 p)) = 16) by (rewrite len_take, len_drop; lia). unfold len in E. lia. }
  remember (take 16 (drop 4 p)) as l. clear Heql. do 16 (destruct l as [|? l]; [discriminate L|]). destruct l; [|discriminate L].
  unfold decode_by_smbios_version. destruct (version_lt v (version_of 2 6)); reflexivity.
Qed.
Lemma system_uuid_whole c r s : System_try_from c r = Val (Ok s) -> match system_uuid s with Some l => length l = 16%nat | None => True end.
Proof.
  unfold System_try_from. destruct (version_lt (version r) (version_of 2 1)); [|destruct (version_lt (version r) (version_of 2 4))].
  all: match goal with |- context [read_packed ?c ?n ?r] => destruct (read_packed c n r) as [p| |] eqn:P; [|discriminate..] end; apply packed_long in P; cbn [obind].
  all: repeat (match goal with |- context [find_string ?r ?n] => destruct (find_string r n); [|discriminate]; cbn [obind] end).
  all: intros E; injection E as <-; cbn [system_uuid]; try exact I; apply uuid_long; lia.
Qed.
Lemma dispatch_uuid_whole c r x : dispatch c r = Val (Ok x) -> uuid_whole x.
Proof.
  assert (K : forall A (f : A -> Structure) o, map_ok f o = Val (Ok x) -> exists a, o = Val (Ok a) /\ x = f a).
  { intros A f [[a|e]| |] H; try discriminate H. injection H as <-. exists a. auto. }
  unfold dispatch. destruct (info r); intros H; try (apply K in H; destruct H as [a [H ->]]); try exact I.
  - exact (system_uuid_whole c r a H).
  - injection H as <-. exact I.
  - injection H as <-. exact I.
  - injection H as <-. exact I.
Qed.
Lemma next_uuid_whole c s x s' : sane s -> next c s = Val (Some (Ok x), s') -> uuid_whole x.
Proof.
  intros HS H. destruct (next_item c s (Ok x) s' HS H) as [[e [E _]]|[r [_ [D _]]]]; [discriminate E|].
  exact (dispatch_uuid_whole _ _ _ D).
Qed.
Lemma next_shown u wide c s x s' : sane s -> well_typed SmbiosVersion_parts (smbios_version s) ->
  next c s = Val (Some (Ok x), s') -> shows u wide 0 (Structure_contents c x) (Structure_debug_text u c wide x).
Proof.
  intros HS HV H. apply Structure_shown; [eapply next_uuid_whole; eassumption|eapply next_fits; eassumption].
Qed.
