(* Lemmas for C85: what the developer texts of structures look like. *)
From Coq Require Import String Ascii.
From Coq Require Import ZArith Lia ZifyBool ZifyNat ZifyN.
From Verif Require Import Base G_Enums M_Raw M_Entry M_Bios M_System M_BaseBoard M_Enclosure M_Processor M_Cache
  M_PortConnector M_SystemSlots M_Strings M_GroupAssociations M_SystemEventLog M_PhysicalMemoryArray M_MemoryDevice
  M_Memory M_PortableBattery M_Iter M_Flags M_Display M_Debug M_Hash M_Eq G_Eq M_Show G_Show
  Spec S_Iter S_Hash S_Text S_Same S_Origin S_Show L_Base L_Utf8 L_Hardware L_Text L_Hash L_Eq L_GEq L_Same L_Show L_GShow L_Fits.
Local Open Scope string_scope.
Local Open Scope N_scope.

(* --------------------------------------------------------------- one line *)

Lemma line_nil u : one_line u "". Proof. exists []. split; [constructor|reflexivity]. Qed.
Lemma line_app u a b : one_line u a -> one_line u b -> one_line u (a ++ b).
Proof.
  intros [cs [HC ->]] [ds [HD ->]]. exists (app cs ds). split; [apply Forall_app; split; assumption|].
  rewrite flat_map_app, show_text_app. reflexivity.
Qed.
Fixpoint clear (s : string) : bool :=
  match s with EmptyString => true | String c s => (32 <=? N_of_ascii c) && (N_of_ascii c <=? 126) && clear s end.
Lemma line_char u c : 32 <= c <= 126 -> one_line u (String (ascii_of_N c) "").
Proof.
  intros H. exists [c]. split; [constructor; [left; exact H|constructor]|]. unfold flat_map, utf8_encode. replace (c <? 128) with true by lia. reflexivity.
Qed.
Lemma line_clear u s : clear s = true -> one_line u s.
Proof.
  induction s as [|c s IH]; intros H; [apply line_nil|]. cbn [clear] in H. apply andb_true_iff in H. destruct H as [H1 H2].
  change (String c s) with (String c "" ++ s). apply line_app; [|apply IH, H2]. rewrite <- (ascii_N_embedding c). apply line_char. lia.
Qed.
Lemma word_clear s : plain_word s = true -> clear s = true.
Proof.
  induction s as [|c s IH]; [reflexivity|]. cbn [plain_word clear]. intros H. apply andb_true_iff in H. destruct H as [H1 H2].
  rewrite IH by exact H2. unfold word_char in H1. lia.
Qed.
Lemma line_word u s : plain_word s = true -> one_line u s. Proof. intros H. apply line_clear, word_clear, H. Qed.
Lemma line_join u sep l : one_line u sep -> Forall (one_line u) l -> one_line u (join sep l).
Proof.
  intros HS H. destruct H as [|s l H HL]; [apply line_nil|]. rewrite join_cons. apply line_app; [exact H|].
  induction HL as [|t l HT HL IH]; [apply line_nil|]. cbn [joined]. repeat apply line_app; assumption.
Qed.
Lemma escaped_clear n : n < 0x110000 -> clear (escaped n) = true.
Proof.
  intros H. unfold escaped.
  repeat match goal with |- clear (if ?b then _ else _) = true => destruct b; [reflexivity|] end.
  assert (P : plain_word (show_hex_low n) = true) by (apply hex_plain; lia).
  assert (A : forall a b, clear (a ++ b) = (clear a && clear b)%bool).
  { intros a b. induction a as [|c a IH]; [reflexivity|]. cbn [append clear]. rewrite IH. apply andb_assoc. }
  rewrite !A, (word_clear _ P). reflexivity.
Qed.
Lemma raw_visible u c : scalar c -> raw_char u c = true -> visible u c /\ c <> 34 /\ c <> 92.
Proof.
  intros HS H. unfold raw_char in H. unfold visible.
  destruct (N.ltb_spec c 128); [lia|]. split; [|lia]. right.
  split; [assumption|]. split; [exact HS|]. destruct (extending u c), (printable u c); try discriminate; split; reflexivity.
Qed.
Lemma raw_not_visible u c : raw_char u c = false -> ~ visible u c \/ c = 34 \/ c = 92.
Proof.
  intros H. unfold raw_char in H. unfold visible.
  destruct (N.ltb_spec c 128); [lia|]. left. intros [V|[_ [_ [P E]]]]; [lia|]. rewrite P, E in H. discriminate H.
Qed.
Lemma line_escape u c : scalar c -> one_line u (escape_code u c).
Proof.
  intros HS. unfold escape_code. rewrite escape_one_eq. destruct (raw_char u c) eqn:E.
  - exists [c]. split; [constructor; [apply raw_visible; assumption|constructor]|]. cbn [flat_map]. rewrite app_nil_r. reflexivity.
  - apply line_clear. cbn [clear]. rewrite escaped_clear by (apply scalar_small, HS). reflexivity.
Qed.
Lemma escape_all_codes u cs : escape_all u (map (fun c => (c, utf8_encode c)) cs) = fold_right append "" (map (escape_code u) cs).
Proof. induction cs as [|c cs IH]; [reflexivity|]. cbn. rewrite IH. reflexivity. Qed.
Lemma line_str u t : utf8 t -> one_line u (show_str u t).
Proof.
  intros [cs [HC ->]]. unfold show_str. rewrite chars_utf8 by exact HC. rewrite escape_all_codes.
  apply line_app; [apply line_clear; reflexivity|]. apply line_app; [|apply line_clear; reflexivity].
  induction HC as [|c cs H HC IH]; [apply line_nil|]. cbn. apply line_app; [apply line_escape, H|exact IH].
Qed.

(* ------------------------------------------------------------ several lines *)

Definition many u (s : string) : Prop := exists l, l <> [] /\ Forall (one_line u) l /\ s = several_lines l.
Lemma many_one u s : one_line u s -> many u s.
Proof. intros H. exists [s]. split; [discriminate|]. split; [repeat constructor; exact H|reflexivity]. Qed.
Lemma several_cons s l : l <> [] -> several_lines (s :: l) = s ++ String (ascii_of_N 10) (several_lines l).
Proof. destruct l; [congruence|reflexivity]. Qed.
Lemma many_line u a b : one_line u a -> many u b -> many u (a ++ newline ++ b).
Proof.
  intros HA [l [HN [HL ->]]]. exists (a :: l). split; [discriminate|]. split; [constructor; assumption|].
  rewrite several_cons by exact HN. reflexivity.
Qed.
Lemma many_app u a b : many u a -> many u b -> many u (a ++ b).
Proof.
  intros [l [HN [HL ->]]] HB. revert HN. induction HL as [|s l H HL IH]; [congruence|]. intros _. destruct HL as [|t l HT HL].
  - cbn [several_lines]. destruct HB as [m [HM [HF ->]]]. destruct HF as [|t m HT HF]; [congruence|]. exists ((s ++ t) :: m).
    split; [discriminate|]. split; [constructor; [apply line_app; assumption|exact HF]|].
    destruct m as [|w m]; [reflexivity|]. rewrite (several_cons t), (several_cons (s ++ t)) by discriminate. rewrite append_assoc. reflexivity.
  - rewrite several_cons by discriminate. rewrite append_assoc. cbn [append].
    change (String (ascii_of_N 10) (several_lines (t :: l) ++ b)) with (newline ++ several_lines (t :: l) ++ b).
    apply many_line; [exact H|]. apply IH. discriminate.
Qed.
Lemma many_break u a b : many u a -> many u b -> many u (a ++ newline ++ b).
Proof. intros HA HB. apply many_app; [exact HA|]. apply (many_line u "" b); [apply line_nil|exact HB]. Qed.
Lemma line_spaces u n : one_line u (spaces n).
Proof. apply line_clear. induction n as [|n IH]; [reflexivity|exact IH]. Qed.
Lemma many_block u d open gap close l : one_line u open -> one_line u close -> Forall (many u) l -> many u (block true d open gap close l).
Proof.
  intros HO HC HL. unfold block. apply many_line; [exact HO|].
  induction HL as [|s l H HL IH]; [apply (many_one u (indent d ++ close)), line_app; [apply line_spaces|exact HC]|].
  cbn [map fold_right]. rewrite !append_assoc. apply many_app; [apply many_one, line_spaces|]. apply many_app; [exact H|].
  apply (many_line u ","); [apply line_clear; reflexivity|exact IH].
Qed.
Lemma line_block u d open gap close l : one_line u open -> one_line u gap -> one_line u close -> Forall (one_line u) l ->
  one_line u (block false d open gap close l).
Proof.
  intros HO HG HC HL. unfold block. repeat apply line_app; try assumption. apply line_join; [apply line_clear; reflexivity|exact HL].
Qed.

Lemma utf8_from t : from_utf8 t = true -> utf8 t. Proof. apply from_utf8_iff. Qed.
Lemma neat_line u t : forall d, neat t = true -> one_line u (print u false d t).
Proof.
  induction t as [l|t|n l IH|n l IH|l IH] using tree_all; intros d H; cbn [neat print] in *.
  - apply andb_true_iff in H. destruct H as [_ H]. apply line_join; [apply line_clear; reflexivity|].
    rewrite forallb_forall in H. apply Forall_forall. intros s HS. apply line_word, H, HS.
  - apply line_str, utf8_from, H.
  - apply andb_true_iff in H. destruct H as [H HL]. apply andb_true_iff in H. destruct H as [HN _].
    apply line_block; [apply line_app; [apply line_word, HN|]| | |]; try (apply line_clear; reflexivity).
    rewrite Forall_map. rewrite forallb_forall in HL. rewrite Forall_forall in *. intros x HX. apply IH; [exact HX|apply HL, HX].
  - apply andb_true_iff in H. destruct H as [H HL]. apply andb_true_iff in H. destruct H as [HN _].
    apply line_block; [apply line_app; [apply line_word, HN|]| | |]; try (apply line_clear; reflexivity).
    rewrite Forall_map. rewrite forallb_forall in HL. rewrite Forall_forall in *. intros [f x] HX.
    pose proof (HL _ HX) as HF. cbn in HF. apply andb_true_iff in HF. destruct HF as [HF1 HF2].
    apply line_app; [apply line_word, HF1|]. apply (line_app u ": "); [apply line_clear; reflexivity|]. apply (IH _ HX), HF2.
  - destruct l as [|x l]; [apply line_clear; reflexivity|].
    apply line_block; try (apply line_clear; reflexivity).
    rewrite Forall_map. rewrite forallb_forall in H. rewrite Forall_forall in *. intros y HY. apply IH; [exact HY|].
    pose proof (H _ HY) as HF. apply andb_true_iff in HF. apply HF.
Qed.
Lemma neat_many u t : forall d, neat t = true -> many u (print u true d t).
Proof.
  induction t as [l|t|n l IH|n l IH|l IH] using tree_all; intros d H.
  - apply many_one. apply (neat_line u (Words l) d H).
  - apply many_one. apply (neat_line u (Quoted t) d H).
  - cbn [neat print] in *. apply andb_true_iff in H. destruct H as [H HL]. apply andb_true_iff in H. destruct H as [HN _].
    apply many_block; [apply line_app; [apply line_word, HN|]| |]; try (apply line_clear; reflexivity).
    rewrite Forall_map. rewrite forallb_forall in HL. rewrite Forall_forall in *. intros x HX. apply IH; [exact HX|apply HL, HX].
  - cbn [neat print] in *. apply andb_true_iff in H. destruct H as [H HL]. apply andb_true_iff in H. destruct H as [HN _].
    apply many_block; [apply line_app; [apply line_word, HN|]| |]; try (apply line_clear; reflexivity).
    rewrite Forall_map. rewrite forallb_forall in HL. rewrite Forall_forall in *. intros [f x] HX.
    pose proof (HL _ HX) as HF. cbn in HF. apply andb_true_iff in HF. destruct HF as [HF1 HF2].
    apply many_app; [apply many_one, line_word, HF1|].
    apply (many_app u ": "); [apply many_one, line_clear; reflexivity|]. apply (IH _ HX), HF2.
  - cbn [neat print] in *. destruct l as [|x l]; [apply many_one, line_clear; reflexivity|].
    apply many_block; try (apply line_clear; reflexivity).
    rewrite Forall_map. rewrite forallb_forall in H. rewrite Forall_forall in *. intros y HY. apply IH; [exact HY|].
    pose proof (H _ HY) as HF. apply andb_true_iff in HF. apply HF.
Qed.
Lemma structure_line u c x : well_typed Structure_parts x -> one_line u (Structure_debug_text u c false x).
Proof. intros H. apply neat_line, (Structure_sound c), H. Qed.
Lemma structure_many u c x : well_typed Structure_parts x ->
  exists l, Forall (one_line u) l /\ Structure_debug_text u c true x = several_lines l.
Proof. intros H. destruct (neat_many u (Structure_tree c x) 0) as [l [_ L]]; [apply (Structure_sound c), H|]. exists l. exact L. Qed.

(* -------------------------------------------------------------------- shape *)

Lemma structure_shape c x : match titles x with (case, type, fields) =>
  exists fs, Structure_tree c x = Call case [Fields type fs] /\ map fst fs = fields end.
Proof. destruct x; cbn [titles]; (eexists; split; [reflexivity|reflexivity]). Qed.
Lemma listed_join l : listed l = join ", " l. Proof. induction l as [|s [|t l] IH]; [reflexivity..|]. cbn [listed join]. f_equal. f_equal. exact IH. Qed.
Lemma combine_fields {A} (f : A -> string) (fs : list (string * A)) :
  combine (map fst fs) (map (fun p => f (snd p)) fs) = map (fun p => (fst p, f (snd p))) fs.
Proof. induction fs as [|[n x] fs IH]; [reflexivity|]. cbn. f_equal. exact IH. Qed.
Lemma shape_line u c x : exists values, shaped x values (Structure_debug_text u c false x).
Proof.
  pose proof (structure_shape c x) as H. unfold shaped, Structure_debug_text. destruct (titles x) as [[case type] fields].
  destruct H as [fs [-> <-]]. exists (map (fun p => print u false 2 (snd p)) fs). split; [rewrite !map_length; reflexivity|].
  rewrite combine_fields, map_map, listed_join. cbn [print map]. unfold block. cbn [join]. rewrite !append_assoc. cbn [append].
  f_equal. f_equal. f_equal. f_equal. f_equal. f_equal. f_equal.
  f_equal. apply map_ext. intros [n y]. reflexivity.
Qed.
Lemma several_app l m : m <> [] -> several_lines (app l m) = fold_right append "" (map (fun s => s ++ newline) l) ++ several_lines m.
Proof.
  intros H. induction l as [|s l IH]; [reflexivity|]. cbn [map fold_right app].
  rewrite several_cons by (destruct l; [exact H|discriminate]). rewrite IH, !append_assoc. reflexivity.
Qed.
Lemma shape_many u c x : exists values, shaped_lines x values (Structure_debug_text u c true x).
Proof.
  pose proof (structure_shape c x) as H. unfold shaped_lines, Structure_debug_text. destruct (titles x) as [[case type] fields].
  destruct H as [fs [-> <-]]. exists (map (fun p => print u true 2 (snd p)) fs). split; [rewrite !map_length; reflexivity|].
  rewrite combine_fields, map_map. rewrite app_assoc, several_app by discriminate. rewrite map_app. cbn [print map]. unfold block.
  rewrite map_map. cbn [map app fold_right fst snd]. change (indent 1) with "    ". change (indent 2) with "        ". change (indent 0) with "".
  rewrite !append_assoc, map_map.
  match goal with |- context [map ?f fs] => match goal with |- context [map ?g fs] =>
    lazymatch f with g => fail | _ => assert (E : map f fs = map g fs) end end end.
  { apply map_ext. intros [n y]. cbn [fst snd]. rewrite !append_assoc. reflexivity. }
  rewrite E. reflexivity.
Qed.

(* ------------------------------------------------------------- what is shown *)

Lemma digits_low_lower f : forall n acc, lower_case acc -> lower_case (digits_low f n acc).
Proof.
  induction f as [|f IH]; intros n acc H; [exact H|]. cbn [digits_low].
  assert (L : lower_case (digit_low (n mod 16) ++ acc)).
  { unfold digit_low. cbn [append list_ascii_of_string]. constructor; [|exact H]. pose proof (N.mod_lt n 16 ltac:(discriminate)).
    rewrite N_ascii_embedding by (destruct (N.ltb_spec (n mod 16) 10); lia). destruct (N.ltb_spec (n mod 16) 10); lia. }
  destruct (n / 16 =? 0); [exact L|apply IH, L].
Qed.
Lemma hex_low_numeral n : n < 2 ^ 64 -> hex_numeral (show_hex_low n) n.
Proof.
  intros H. split; [apply show_hex_low_numeral; eapply N.lt_trans; [exact H|reflexivity]|apply digits_low_lower; constructor].
Qed.
Lemma spelled_code u c : scalar c -> spelled u c (escape_code u c).
Proof.
  intros HS. unfold escape_code. rewrite escape_one_eq. destruct (raw_char u c) eqn:E.
  - apply raw_visible in E as [V [A B]]; [|exact HS]. apply spelled_as_it_is; assumption.
  - apply raw_not_visible in E. unfold escaped.
    destruct (N.eqb_spec c 0); [subst; apply spelled_by_letter; cbn; tauto|].
    destruct (N.eqb_spec c 9); [subst; apply spelled_by_letter; cbn; tauto|].
    destruct (N.eqb_spec c 10); [subst; apply spelled_by_letter; cbn; tauto|].
    destruct (N.eqb_spec c 13); [subst; apply spelled_by_letter; cbn; tauto|].
    destruct (N.eqb_spec c 34); [subst; apply spelled_by_letter; cbn; tauto|].
    destruct (N.eqb_spec c 92); [subst; apply spelled_by_letter; cbn; tauto|].
    apply (spelled_by_number u c (show_hex_low c)).
    + destruct E as [E|[E|E]]; [exact E|congruence..].
    + cbn. intros H. repeat destruct H as [H|H]; congruence || exact H.
    + apply hex_low_numeral. pose proof (scalar_small c HS). eapply N.lt_trans; [eassumption|reflexivity].
Qed.
Lemma literal_str u t : utf8 t -> literal u t (show_str u t).
Proof.
  intros [cs [HC ->]]. exists cs, (map (escape_code u) cs). split; [exact HC|]. split; [reflexivity|]. split.
  - induction HC as [|c cs H HC IH]; [constructor|]. cbn [map]. constructor; [apply spelled_code, H|exact IH].
  - unfold show_str. rewrite chars_utf8 by exact HC. rewrite escape_all_codes. reflexivity.
Qed.

Fixpoint quoted (t : tree) : list text :=
  match t with
  | Words _ => []
  | Quoted t => [t]
  | Call _ l => flat_map quoted l
  | Fields _ l => flat_map (fun p => match p with (_, x) => quoted x end) l
  | Items l => flat_map quoted l
  end.
Definition inside (s t : string) : Prop := exists a b, t = a ++ s ++ b.
Lemma inside_app_l s a b : inside s b -> inside s (a ++ b).
Proof. intros [x [y ->]]. exists (a ++ x), y. rewrite append_assoc. reflexivity. Qed.
Lemma inside_app_r s a b : inside s a -> inside s (a ++ b).
Proof. intros [x [y ->]]. exists x, (y ++ b). rewrite !append_assoc. reflexivity. Qed.
Lemma inside_join s sep x l : inside s x -> In x l -> inside s (join sep l).
Proof.
  intros H. induction l as [|y l IH]; [contradiction|]. intros HI. rewrite join_cons. destruct HI as [->|HI]; [apply inside_app_r, H|].
  apply inside_app_l. clear IH. induction l as [|z l IH]; [contradiction|]. cbn [joined]. apply inside_app_l.
  destruct HI as [->|HI]; [apply inside_app_r, H|apply inside_app_l, IH, HI].
Qed.
Lemma inside_block s alt d open gap close x l : inside s x -> In x l -> inside s (block alt d open gap close l).
Proof.
  intros H HI. unfold block. destruct alt; [|apply inside_app_l, inside_app_l, inside_app_r; eapply inside_join; eassumption].
  apply inside_app_l, inside_app_l, inside_app_r. induction l as [|y l IH]; [contradiction|]. cbn [map fold_right].
  destruct HI as [->|HI]; [apply inside_app_r, inside_app_l, inside_app_r, H|apply inside_app_l, IH, HI].
Qed.
Lemma quoted_inside u alt s t : forall d, In s (quoted t) -> inside (show_str u s) (print u alt d t).
Proof.
  induction t as [l|t|n l IH|n l IH|l IH] using tree_all; intros d H; cbn [quoted print] in *.
  - contradiction.
  - destruct H as [->|[]]. exists "", "". cbn [append]. symmetry. apply append_nil.
  - apply in_flat_map in H as [x [HX HS]]. rewrite Forall_forall in IH.
    eapply inside_block; [apply (IH x HX (S d) HS)|]. apply in_map_iff. eauto.
  - apply in_flat_map in H as [[f x] [HX HS]]. rewrite Forall_forall in IH.
    eapply (inside_block _ _ _ _ _ _ (f ++ ": " ++ print u alt (S d) x));
      [apply inside_app_l, inside_app_l, (IH (f, x) HX (S d) HS)|]. apply in_map_iff. exists (f, x). auto.
  - apply in_flat_map in H as [x [HX HS]]. rewrite Forall_forall in IH. destruct l as [|y l]; [contradiction|].
    eapply inside_block; [apply (IH x HX (S d) HS)|]. apply in_map_iff. eauto.
Qed.

Lemma neat_quoted s t : neat t = true -> In s (quoted t) -> utf8 s.
Proof.
  induction t as [l|t|n l IH|n l IH|l IH] using tree_all; intros H HI; cbn [neat quoted] in *.
  - contradiction.
  - destruct HI as [<-|[]]. apply utf8_from, H.
  - apply in_flat_map in HI as [x [HX HS]]. apply andb_true_iff in H. destruct H as [_ H]. rewrite forallb_forall in H.
    rewrite Forall_forall in IH. apply (IH x HX (H x HX) HS).
  - apply in_flat_map in HI as [[f x] [HX HS]]. apply andb_true_iff in H. destruct H as [_ H]. rewrite forallb_forall in H.
    rewrite Forall_forall in IH. pose proof (H _ HX) as HF. cbn in HF. apply andb_true_iff in HF. apply (IH (f, x) HX (proj2 HF) HS).
  - apply in_flat_map in HI as [x [HX HS]]. rewrite forallb_forall in H. rewrite Forall_forall in IH.
    pose proof (H _ HX) as HF. cbn in HF. apply andb_true_iff in HF. apply (IH x HX (proj2 HF) HS).
Qed.

Lemma in_fields v n fs t : (exists f x, In (f, x) fs /\ In t (quoted x)) -> In t (quoted (Call v [Fields n fs])).
Proof.
  intros [f [x [HF HX]]]. cbn [quoted flat_map]. rewrite app_nil_r. apply in_flat_map. exists (f, x). split; assumption.
Qed.
Lemma quoted_option t o : In t (optional o) -> In t (quoted (show_option Quoted o)).
Proof. destruct o as [x|]; [|contradiction]. intros [->|[]]. left. reflexivity. Qed.
Lemma quoted_date t o : In t (date_text o) -> In t (quoted (ManufactureDate_tree o)).
Proof. destruct o; try contradiction. intros [->|[]]. left. reflexivity. Qed.
Lemma quoted_serial t o : In t (serial_text o) -> In t (quoted (SerialNumber_tree o)).
Proof. destruct o; try contradiction. intros [->|[]]. left. reflexivity. Qed.
Lemma quoted_chemistry t o : In t (chemistry_text o) -> In t (quoted (DeviceChemistry_tree o)).
Proof. destruct o; try contradiction. intros [->|[]]. left. reflexivity. Qed.
Ltac find_field tac := first [ left; split; [reflexivity|tac] | right; find_field tac ].
Lemma here_field {A B} (P : A -> B -> Prop) f x (l : list (A * B)) :
  P f x \/ (exists g y, In (g, y) l /\ P g y) -> exists g y, In (g, y) ((f, x) :: l) /\ P g y.
Proof. intros [H|[g [y [H1 H2]]]]; [exists f, x; split; [left; reflexivity|exact H]|exists g, y; split; [right; exact H1|exact H2]]. Qed.
Ltac seek :=
  apply (here_field (fun _ y => In _ (quoted y)));
  first [ left; first [ left; reflexivity | apply quoted_option; assumption | apply quoted_date; assumption
                      | apply quoted_serial; assumption | apply quoted_chemistry; assumption ]
        | right; seek ].
Lemma shown_quoted c x t : In t (shown_texts x) -> In t (quoted (Structure_tree c x)).
Proof.
  destruct x as [s|s|s|s|s|s|s|s|s|s|s|s|s|s|s|s|s|s|s|s|s]; cbn [shown_texts]; intros H; try contradiction;
    repeat (first [contradiction H | (apply in_app_or in H; destruct H as [H|H]) | (destruct H as [H|H]; [subst t|])]);
    apply in_fields; seek.
Qed.
Lemma structure_texts u c alt x t : well_typed Structure_parts x -> In t (shown_texts x) ->
  exists a s b, literal u t s /\ Structure_debug_text u c alt x = a ++ s ++ b.
Proof.
  intros HW H. apply (shown_quoted c) in H. destruct (quoted_inside u alt t (Structure_tree c x) 0 H) as [a [b E]].
  exists a, (show_str u t), b. split; [|exact E]. apply literal_str. eapply neat_quoted; [|exact H]. apply (Structure_sound c), HW.
Qed.

(* the handle *)
Lemma structure_handle u c x case type fields : titles x = (case, type, fields) -> (forall r, x <> SOther r) ->
  well_typed Structure_parts x ->
  exists d rest, numeral 10 d (shown_handle x) /\ Structure_debug_text u c false x = case ++ "(" ++ type ++ " { handle: " ++ d ++ ", " ++ rest.
Proof.
  intros HT HX HW.
  assert (HN : shown_handle x < 2 ^ 64).
  { destruct x; try (exfalso; eapply HX; reflexivity); unfold well_typed in HW; inversion HW as [|? ? _ H]; subst;
      inversion H as [|? ? HH _]; subst; cbn [fits_type width_bits] in HH; cbn [shown_handle]; refine (N.lt_trans _ _ _ HH _); reflexivity. }
  exists (show_dec (shown_handle x)).
  assert (HF : exists f fs, Structure_tree c x = Call case [Fields type (("handle", show_int (shown_handle x)) :: f :: fs)]).
  { destruct x; try (exfalso; eapply HX; reflexivity); injection HT as <- <- <-; do 2 eexists; reflexivity. }
  destruct HF as [[n y] [fs E]]. unfold Structure_debug_text. rewrite E.
  eexists.
  split; [apply show_dec_numeral; eapply N.lt_trans; [exact HN|reflexivity]|].
  cbn [print map show_int]. unfold block. cbn [join]. rewrite !append_assoc. cbn [append]. reflexivity.
Qed.

(* ---------------------------------------------------------------- told apart *)

Lemma forget_tree c x : Structure_tree c (forget x) = Structure_tree c x.
Proof.
  destruct x; try reflexivity. cbn [forget Structure_tree]. do 2 f_equal. unfold Enclosure_tree.
  cbn [enclosure_handle enclosure_manufacturer enclosure_chassis_lock enclosure_enclosure_type enclosure_version
    enclosure_serial_number enclosure_asset_tag_number enclosure_boot_up_state enclosure_power_supply_state enclosure_thermal_state
    enclosure_security_status enclosure_oem_defined enclosure_height enclosure_power_cords_number enclosure_contained_elements
    enclosure_sku_number].
  destruct (enclosure_contained_elements s); reflexivity.
Qed.
Lemma descriptors_shown d e : Forall fits_type (descriptors d) -> Forall fits_type (descriptors e) ->
  EventLogTypeDescriptors_tree d = EventLogTypeDescriptors_tree e -> d = e.
Proof.
  intros HD HE E. inversion HD as [|? ? FD _]; subst. inversion HE as [|? ? FE _]; subst. destruct FD as [D1 D2], FE as [E1 E2].
  assert (C : show_chunks (descriptors_data d) (descriptors_size d) = show_chunks (descriptors_data e) (descriptors_size e))
    by (unfold EventLogTypeDescriptors_tree in E; congruence).
  apply chunks_inj in C as [C1 C2]; [|assumption..]. destruct d, e. cbn in *. subst. reflexivity.
Qed.
Lemma text_tree u c alt x y : well_typed Structure_parts x -> well_typed Structure_parts y ->
  Structure_debug_text u c alt x = Structure_debug_text u c alt y -> Structure_tree c x = Structure_tree c y.
Proof.
  intros HX HY E. unfold Structure_debug_text in E.
  destruct (print_split u alt (Structure_tree c x) (Structure_tree c y) 0 "" "") as [T _]; try reflexivity.
  - apply (Structure_sound c), HX.
  - apply (Structure_sound c), HY.
  - rewrite !append_nil. exact E.
  - exact T.
Qed.
Lemma text_eq u c alt x y : well_typed Structure_parts x -> well_typed Structure_parts y ->
  Structure_debug_text u c alt x = Structure_debug_text u c alt y -> Structure_eq x y = true.
Proof. intros HX HY E. apply (Structure_sound c); [assumption..|]. eapply text_tree; eassumption. Qed.
Lemma log_fits s d : well_typed Structure_parts (SSystemEventLog (with_descriptors s d)) -> Forall fits_type (descriptors d).
Proof.
  intros H. unfold well_typed in H. cbn [Structure_parts] in H. inversion H as [|? ? _ HL]; subst. unfold SystemEventLog_parts in HL.
  do 8 (apply Forall_app in HL as [_ HL]). cbn in HL. inversion HL; assumption.
Qed.
Lemma text_exactly u c alt x y : well_typed Structure_parts x -> well_typed Structure_parts y -> lists_ok x -> lists_ok y ->
  (Structure_debug_text u c alt x = Structure_debug_text u c alt y <-> forget x = forget y).
Proof.
  intros HX HY LX LY. split; intros E.
  - pose proof (text_tree u c alt x y HX HY E) as T. apply text_eq in E; [|assumption..]. apply structure_eq_value in E; [|assumption..].
    destruct E as [x y E|s d e _]; [exact E|]. cbn [forget]. f_equal. f_equal.
    apply descriptors_shown; [eapply log_fits, HX|eapply log_fits, HY|].
    assert (P : forall d, Structure_tree c (SSystemEventLog (with_descriptors s d)) =
      Call "SystemEventLog" [SystemEventLog_tree (with_descriptors s d)]) by reflexivity.
    rewrite !P in T. clear P.
    assert (P : SystemEventLog_tree (with_descriptors s d) = SystemEventLog_tree (with_descriptors s e)) by congruence.
    unfold SystemEventLog_tree, with_descriptors in P.
    cbn [log_handle log_log_area_length log_log_header_start_offset log_log_data_start_offset log_access_method log_log_status
      log_log_change_token log_log_header_format log_descriptors] in P. unfold show_option in P at 2. unfold show_option in P at 3.
    congruence.
  - unfold Structure_debug_text. rewrite <- (forget_tree c x), <- (forget_tree c y), E. reflexivity.
Qed.
Lemma plain_exactly {A} u alt (tr : A -> tree) ps x y : sound tr ps -> codec ps eq -> well_typed ps x -> well_typed ps y ->
  (print u alt 0 (tr x) = print u alt 0 (tr y) <-> x = y).
Proof.
  intros HS HC HX HY. split; [|intros ->; reflexivity]. intros E. eapply sound_text in E; [|exact HS|assumption..].
  apply (proj1 (plain _ HC x y)), E.
Qed.
Lemma raw_exactly u alt x y : well_typed RawStructure_parts x -> well_typed RawStructure_parts y ->
  (RawStructure_debug_text u alt x = RawStructure_debug_text u alt y <-> bare x = bare y).
Proof.
  intros HX HY. split.
  - intros E. eapply sound_text in E; [|exact RawStructure_sound|assumption..]. apply (proj1 (raw_eq x y)), E.
  - intros E. unfold RawStructure_debug_text. assert (T : forall r, RawStructure_tree (bare r) = RawStructure_tree r) by reflexivity.
    rewrite <- (T x), <- (T y), E. reflexivity.
Qed.
(* the debug model for errors of C82 writes the same for the kinds of structures *)
Lemma info_render u alt d i : render alt d (InfoType_dbg i) = print u alt d (InfoType_tree i).
Proof.
  destruct alt, i; try reflexivity.
  cbn [InfoType_dbg InfoType_tree InfoType_value InfoType_name show_variant show_int int_debug print render map join].
  unfold block. cbn [map fold_right]. rewrite !append_assoc. reflexivity.
Qed.
(* a text below 80h is written in errors as it is in structures *)
Lemma quoted_render u alt d t : Forall (fun b => b < 128) t ->
  render alt d (str_debug (show_text t)) = print u alt d (Quoted t).
Proof.
  intros H. cbn [render str_debug print]. unfold str_debug, show_str. f_equal. f_equal.
  induction H as [|b t HB H IH]; [reflexivity|]. cbn [show_text escape chars].
  replace (b <? 128) with true by lia. cbn [escape_all]. rewrite IH. f_equal.
  unfold escape_char, escape_one, escape_unicode, backslash. cbn [fst snd show_text].
  rewrite N_ascii_embedding by lia. cbv zeta. replace (b <? 128) with true by lia.
  repeat match goal with |- context [?x =? ?y] => destruct (N.eqb_spec x y); subst; try reflexivity end.
Qed.
