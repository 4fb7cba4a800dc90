(* Lemmas for C86: the developer texts of the bit field types. *)
From Coq Require Import String Ascii.
From Coq Require Import ZArith Lia ZifyBool ZifyNat ZifyN.
From Verif Require Import Base M_Raw M_Display M_Bitfield M_BitfieldEq M_Debug M_Show M_BitShow G_Layouts
  Spec S_Text S_Show S_BitShow L_Base L_Utf8 L_Text L_BitfieldEq L_Show L_Shown.
Local Open Scope string_scope.
Local Open Scope N_scope.

(* numbers of up to 128 bits *)
Lemma big_room n : n < 2 ^ 128 -> n < 10 ^ 64.
Proof. intros H. eapply N.lt_trans; [exact H|reflexivity]. Qed.
Lemma usize_room n : rust_usize n -> n < 2 ^ 128.
Proof. intros H. eapply N.lt_trans; [exact H|reflexivity]. Qed.
Lemma big_plain n : n < 2 ^ 128 -> plain_word (show_dec n) = true.
Proof.
  intros H. destruct (show_dec_reads n (big_room n H)) as [N R]. apply digits_plain. eapply reads_all_digits, R.
Qed.
Lemma big_inj m n : m < 2 ^ 128 -> n < 2 ^ 128 -> show_dec m = show_dec n -> m = n.
Proof. intros HM HN. apply show_dec_inj; apply big_room; assumption. Qed.
Lemma big_neat n : n < 2 ^ 128 -> neat (show_int n) = true.
Proof. intros H. cbn [neat show_int some forallb]. rewrite big_plain by exact H. reflexivity. Qed.
Lemma big_int_inj m n : m < 2 ^ 128 -> n < 2 ^ 128 -> show_int m = show_int n -> m = n.
Proof. intros HM HN E. apply big_inj; [assumption..|]. unfold show_int in E. congruence. Qed.
Lemma big_numeral n : n < 2 ^ 128 -> numeral 10 (show_dec n) n.
Proof. intros H. apply show_dec_numeral, big_room, H. Qed.

(* the trees are neat *)
Lemma literal_neat s : rust_str s -> neat (show_literal s) = true.
Proof. intros H. apply from_utf8_iff, H. Qed.
Lemma literal_inj a b : show_literal a = show_literal b -> a = b.
Proof. intros E. apply str_bytes_inj. unfold show_literal in E. congruence. Qed.
Lemma flag_type_neat t : rust_flag_type t -> neat (FlagType_tree t) = true.
Proof.
  destruct t as [|m d|n]; cbn [rust_flag_type FlagType_tree neat some forallb]; intros H; [reflexivity| |].
  - destruct H as [H1 H2]. rewrite !literal_neat by assumption. reflexivity.
  - rewrite literal_neat by assumption. reflexivity.
Qed.
Lemma flag_type_tree_inj s t : FlagType_tree s = FlagType_tree t -> s = t.
Proof.
  destruct s as [|m d|n], t as [|m' d'|n']; cbn [FlagType_tree]; intros E; try discriminate E; [reflexivity| |].
  - f_equal; apply literal_inj; unfold show_literal in *; congruence.
  - f_equal. apply literal_inj. unfold show_literal in *. congruence.
Qed.
Lemma layout_tree_inj l m : map FlagType_tree l = map FlagType_tree m -> l = m.
Proof.
  revert m. induction l as [|x l IH]; intros [|y m] E; try discriminate E; [reflexivity|].
  cbn [map] in E. apply cons_inj in E. destruct E as [E1 E2]. rewrite (IH m E2), (flag_type_tree_inj x y E1). reflexivity.
Qed.
Lemma layout_neat l : Forall rust_flag_type l -> neat (Items (map FlagType_tree l)) = true.
Proof.
  intros H. cbn [neat]. rewrite forallb_map. apply forallb_forall. intros t I. rewrite Forall_forall in H.
  rewrite flag_type_neat by (apply H, I). destruct t; reflexivity.
Qed.
Lemma position_neat p : rust_usize p -> neat (Position_tree p) = true.
Proof. intros H. unfold Position_tree, show_wrapped. cbn [neat some forallb]. rewrite big_neat by (apply usize_room, H). reflexivity. Qed.
Lemma flag_neat f : rust_flag f -> neat (Flag_tree f) = true.
Proof.
  intros [H _]. unfold Flag_tree. cbn [neat some forallb]. rewrite position_neat by exact H. destruct (is_set f); reflexivity.
Qed.
Lemma iter_neat it : rust_iter it -> neat (Iter_tree it) = true.
Proof.
  intros [HV [HI HL]]. pose proof (layout_neat _ HL) as N. unfold Iter_tree.
  set (items := Items (map FlagType_tree (it_layout it))) in *. cbn [neat some forallb].
  rewrite !big_neat, N by first [assumption|apply usize_room; assumption]. reflexivity.
Qed.
Lemma significants_neat it : rust_iter it -> neat (Significants_tree it) = true.
Proof.
  intros H. pose proof (iter_neat it H) as N. unfold Significants_tree. set (i := Iter_tree it) in *.
  cbn [neat some forallb]. rewrite N. reflexivity.
Qed.
Lemma option_neat o : (forall s, o = Some s -> rust_str s) -> neat (show_option show_literal o) = true.
Proof.
  destruct o as [s|]; intros H; [|reflexivity]. cbn [neat show_option some forallb]. rewrite literal_neat by (apply H; reflexivity). reflexivity.
Qed.
Lemma reserved_neat r : rust_reserved r -> neat (Reserved_tree r) = true.
Proof.
  intros [HI [HD HS]]. pose proof (iter_neat _ HI) as N. pose proof (option_neat _ HD) as O. unfold Reserved_tree.
  set (i := Iter_tree (rv_iter r)) in *. set (o := show_option show_literal (rv_desc r)) in *. cbn [neat some forallb].
  rewrite N, O, big_neat by (apply usize_room, HS). reflexivity.
Qed.
Lemma range_neat r : rust_range r -> neat (ReservedRange_tree r) = true.
Proof.
  intros [HD [HS HE]]. unfold ReservedRange_tree. cbn [neat some forallb].
  rewrite literal_neat, !plain_word_app, !big_plain by first [assumption|apply usize_room; assumption]. reflexivity.
Qed.

(* a text determines its tree *)
Lemma tree_of_text u alt d t r : neat t = true -> neat r = true -> print u alt d t = print u alt d r -> t = r.
Proof.
  intros HT HR E. rewrite <- (append_nil (print u alt d t)), <- (append_nil (print u alt d r)) in E.
  apply print_split in E; [apply E|assumption..|reflexivity|reflexivity].
Qed.
Lemma flag_type_exactly u alt s t : rust_flag_type s -> rust_flag_type t ->
  (FlagType_debug_text u alt s = FlagType_debug_text u alt t <-> s = t).
Proof.
  intros HS HT. split; [|intros ->; reflexivity]. intros E.
  apply tree_of_text in E; [|apply flag_type_neat; assumption..]. apply flag_type_tree_inj, E.
Qed.
Lemma position_exactly u alt p q : rust_usize p -> rust_usize q ->
  (Position_debug_text u alt p = Position_debug_text u alt q <-> p = q).
Proof.
  intros HP HQ. split; [|intros ->; reflexivity]. intros E.
  apply tree_of_text in E; [|apply position_neat; assumption..]. unfold Position_tree, show_wrapped in E.
  apply big_int_inj; [apply usize_room; assumption..|]. congruence.
Qed.
Lemma iter_tree_inj a b : rust_iter a -> rust_iter b -> it_size a = it_size b -> Iter_tree a = Iter_tree b -> a = b.
Proof.
  destruct a as [s v i l], b as [s' v' i' l']. unfold rust_iter, Iter_tree. cbn [it_size it_value it_index it_layout].
  intros [HV [HI _]] [HV' [HI' _]] -> E.
  assert (E1 : show_int v = show_int v') by congruence. assert (E2 : show_int i = show_int i') by congruence.
  assert (E3 : map FlagType_tree l = map FlagType_tree l') by congruence.
  apply big_int_inj in E1, E2; try assumption; try (apply usize_room; assumption). apply layout_tree_inj in E3. congruence.
Qed.
Lemma iter_exactly u alt a b : rust_iter a -> rust_iter b -> it_size a = it_size b ->
  (Iter_debug_text u alt a = Iter_debug_text u alt b <-> a = b).
Proof.
  intros HA HB S. split; [|intros ->; reflexivity]. intros E.
  apply tree_of_text in E; [|apply iter_neat; assumption..]. apply iter_tree_inj; assumption.
Qed.
Lemma significants_exactly u alt a b : rust_iter a -> rust_iter b -> it_size a = it_size b ->
  (Significants_debug_text u alt a = Significants_debug_text u alt b <-> a = b).
Proof.
  intros HA HB S. split; [|intros ->; reflexivity]. intros E.
  apply tree_of_text in E; [|apply significants_neat; assumption..]. apply iter_tree_inj; try assumption.
  unfold Significants_tree in E. congruence.
Qed.
Lemma option_tree_inj a b : show_option show_literal a = show_option show_literal b -> a = b.
Proof.
  destruct a as [a|], b as [b|]; cbn [show_option]; intros E; try discriminate E; [|reflexivity].
  f_equal. apply literal_inj. congruence.
Qed.
Lemma reserved_exactly u alt a b : rust_reserved a -> rust_reserved b -> it_size (rv_iter a) = it_size (rv_iter b) ->
  (Reserved_debug_text u alt a = Reserved_debug_text u alt b <-> a = b).
Proof.
  intros HA HB S. split; [|intros ->; reflexivity]. intros E.
  apply tree_of_text in E; [|apply reserved_neat; assumption..].
  destruct a as [i d n], b as [i' d' n']. destruct HA as [HI [_ HS]], HB as [HI' [_ HS']]. cbn [rv_iter rv_desc rv_start] in *.
  unfold Reserved_tree in E. cbn [rv_iter rv_desc rv_start] in E.
  assert (E1 : Iter_tree i = Iter_tree i') by congruence.
  assert (E2 : show_option show_literal d = show_option show_literal d') by congruence.
  assert (E3 : show_int n = show_int n') by congruence.
  apply iter_tree_inj in E1; [|assumption..]. apply option_tree_inj in E2. apply big_int_inj in E3; [|apply usize_room; assumption..]. congruence.
Qed.
Lemma range_exactly u alt a b : rust_range a -> rust_range b ->
  (ReservedRange_debug_text u alt a = ReservedRange_debug_text u alt b <-> a = b).
Proof.
  intros HA HB. split; [|intros ->; reflexivity]. intros E.
  apply tree_of_text in E; [|apply range_neat; assumption..].
  destruct a as [d s e], b as [d' s' e']. destruct HA as [_ [HS HE]], HB as [_ [HS' HE']].
  unfold ReservedRange_tree in E. cbn [description range_start range_end] in *.
  assert (E1 : show_literal d = show_literal d') by congruence.
  assert (E2 : show_dec s ++ "..=" ++ show_dec e = show_dec s' ++ "..=" ++ show_dec e') by congruence.
  apply literal_inj in E1. 
  apply (split_reads 10 _ _ s s') in E2; [|apply show_dec_reads, big_room, usize_room; assumption..|reflexivity|reflexivity].
  destruct E2 as [-> E2]. apply prefix_cancel in E2. apply big_inj in E2; [|apply usize_room; assumption..]. congruence.
Qed.

(* what the texts look like *)
Lemma flag_type_spelled u d t : rust_flag_type t -> flag_type_text u t (print u false d (FlagType_tree t)).
Proof.
  destruct t as [|m e|n]; cbn [rust_flag_type FlagType_tree print map]; intros H; unfold block; cbn [join].
  - constructor.
  - destruct H as [H1 H2]. rewrite !append_assoc. cbn [append].
    apply (significant_text u m e); apply literal_str; assumption.
  - rewrite !append_assoc. cbn [append]. apply (reserved_text u n), literal_str, H.
Qed.
Lemma layout_spelled u d l : Forall rust_flag_type l -> Forall2 (flag_type_text u) l (map (fun t => print u false d (FlagType_tree t)) l).
Proof. intros H. induction H as [|t l HT H IH]; [constructor|]. cbn [map]. constructor; [apply flag_type_spelled, HT|exact IH]. Qed.
Lemma items_text u d l : print u false d (Items l) = "[" ++ listed (map (fun t => print u false (S d) t) l) ++ "]".
Proof. destruct l as [|t l]; [reflexivity|]. rewrite listed_join. cbn [print]. unfold block. reflexivity. Qed.
Lemma fields_2 u d n a x b y : print u false d (Fields n [(a, x); (b, y)]) =
  n ++ " { " ++ a ++ ": " ++ print u false (S d) x ++ ", " ++ b ++ ": " ++ print u false (S d) y ++ " }".
Proof. cbn [print map]. unfold block. cbn [join]. rewrite !append_assoc. reflexivity. Qed.
Lemma fields_3 u d n a x b y c z : print u false d (Fields n [(a, x); (b, y); (c, z)]) =
  n ++ " { " ++ a ++ ": " ++ print u false (S d) x ++ ", " ++ b ++ ": " ++ print u false (S d) y ++ ", " ++ c ++ ": " ++ print u false (S d) z ++ " }".
Proof. cbn [print map]. unfold block. cbn [join]. rewrite !append_assoc. reflexivity. Qed.
Lemma iter_spelled u d it : rust_iter it -> iter_text u it (print u false d (Iter_tree it)).
Proof.
  intros [HV [HI HL]]. exists (show_dec (it_value it)), (show_dec (it_index it)),
    (map (fun t => print u false (S (S d)) (FlagType_tree t)) (it_layout it)).
  split; [apply big_numeral, HV|]. split; [apply big_numeral, usize_room, HI|]. split; [apply layout_spelled, HL|].
  unfold Iter_tree. rewrite fields_3, items_text, map_map, !append_assoc. reflexivity.
Qed.
Lemma significants_spelled u d it : rust_iter it -> exists s, iter_text u it s /\
  print u false d (Significants_tree it) = "Significants(" ++ s ++ ")".
Proof.
  intros H. exists (print u false (S d) (Iter_tree it)). split; [apply iter_spelled, H|].
  unfold Significants_tree. generalize (Iter_tree it). intros t. cbn [print map]. unfold block. cbn [join]. rewrite !append_assoc. reflexivity.
Qed.
Lemma option_spelled u d o : (forall s, o = Some s -> rust_str s) -> option_text u o (print u false d (show_option show_literal o)).
Proof.
  destruct o as [s|]; intros H; [|constructor]. cbn [show_option print map]. unfold block. cbn [join]. rewrite !append_assoc.
  cbn [append]. apply (some_text u s), literal_str. apply H. reflexivity.
Qed.
Lemma reserved_spelled u d r : rust_reserved r -> reserved_iter_text u r (print u false d (Reserved_tree r)).
Proof.
  intros [HI [HD HS]]. exists (print u false (S d) (Iter_tree (rv_iter r))), (print u false (S d) (show_option show_literal (rv_desc r))),
    (show_dec (rv_start r)).
  split; [apply iter_spelled, HI|]. split; [apply option_spelled, HD|]. split; [apply big_numeral, usize_room, HS|].
  unfold Reserved_tree. rewrite fields_3. reflexivity.
Qed.
Lemma range_spelled u d r : rust_range r -> range_text u r (print u false d (ReservedRange_tree r)).
Proof.
  intros [HD [HS HE]]. exists (show_str u (bytes_of (description r))), (show_dec (range_start r)), (show_dec (range_end r)).
  split; [apply literal_str, HD|]. split; [apply big_numeral, usize_room, HS|]. split; [apply big_numeral, usize_room, HE|].
  unfold ReservedRange_tree. rewrite fields_2. cbn [print join]. rewrite !append_assoc. reflexivity.
Qed.
Lemma flag_render u alt f : print u alt 0 (Flag_tree f) = Flag_debug alt f.
Proof.
  unfold Flag_debug. destruct alt, (is_set f) eqn:E; unfold Flag_tree; rewrite E; cbn [print map Position_tree show_wrapped show_int show_bool];
    unfold block; cbn [join map fold_right]; rewrite ?append_assoc; cbn [append]; rewrite ?append_assoc; reflexivity.
Qed.

(* ------------------------------------------------------------------ reachable *)

Definition utf8_flag_type (t : FlagType) : bool :=
  match t with FUnknown => true | Significant m d => from_utf8 (bytes_of m) && from_utf8 (bytes_of d) | FReserved n => from_utf8 (bytes_of n) end.
Lemma utf8_type t : utf8_flag_type t = true -> rust_flag_type t.
Proof.
  destruct t as [|m d|n]; cbn [utf8_flag_type rust_flag_type]; intros H; [exact I| |apply from_utf8_iff, H].
  apply andb_true_iff in H. split; apply from_utf8_iff; tauto.
Qed.
Lemma shipped_rust : Forall (fun x => Forall rust_flag_type (snd x)) all_layouts.
Proof.
  assert (H : forallb (fun x => forallb utf8_flag_type (snd x)) all_layouts = true) by (vm_compute; reflexivity).
  rewrite forallb_forall in H. apply Forall_forall. intros x I. specialize (H x I). rewrite forallb_forall in H.
  apply Forall_forall. intros t J. apply utf8_type, H, J.
Qed.
(* next keeps this up *)
Lemma iter_next_rust c it o it' : rust_iter it -> len (it_layout it) < 2 ^ 64 -> iter_next c it = Val (o, it') ->
  (rust_iter it' /\ it_layout it' = it_layout it) /\ forall f, o = Some f -> rust_flag f /\ position f < 2 ^ 64.
Proof.
  intros [HV [HI HL]] LL. unfold iter_next. cbv zeta. destruct (it_index it =? it_size it * 8).
  - intros [= <- <-]. split; [split; [split; [|split]|reflexivity]; assumption|]. discriminate.
  - destruct (shl1 c 128 (it_index it)) as [b| |]; [|discriminate..]. cbn [obind].
    unfold index. destruct (nth_error (it_layout it) (N.to_nat (it_index it))) as [t|] eqn:E; [|discriminate]. cbn [obind].
    intros [= <- <-]. assert (B : it_index it < len (it_layout it)).
    { assert (D : nth_error (it_layout it) (N.to_nat (it_index it)) <> None) by congruence. apply nth_error_Some in D. unfold len. lia. }
    split.
    + split; [|reflexivity]. split; [exact HV|]. split; [unfold rust_usize; cbn [it_index]; lia|exact HL].
    + intros f [= <-]. split; [|exact HI]. split; [exact HI|]. cbn [type_]. rewrite Forall_forall in HL. apply HL. eapply nth_error_In, E.
Qed.
Lemma significants_loop_rust c fuel : forall it o it', rust_iter it -> len (it_layout it) < 2 ^ 64 ->
  significants_loop fuel c it = Val (o, it') ->
  (rust_iter it' /\ it_layout it' = it_layout it) /\ forall f, o = Some f -> rust_flag f.
Proof.
  induction fuel as [|fuel IH]; intros it o it' H L; [discriminate|]. cbn [significants_loop].
  destruct (iter_next c it) as [[p it1]| |] eqn:E; [|discriminate..]. cbn [obind].
  apply iter_next_rust in E; [|assumption..]. destruct E as [[R1 L1] F1]. destruct p as [f|].
  - destruct (is_reserved (type_ f) || negb (is_set f))%bool.
    + intros E. rewrite <- L1. apply IH; [exact R1|rewrite L1; exact L|exact E].
    + intros [= <- <-]. split; [split; assumption|]. intros g [= <-]. apply F1. reflexivity.
  - intros [= <- <-]. split; [split; assumption|]. discriminate.
Qed.
Lemma reserved_loop_rust c fuel : forall r fin o r', rust_reserved r -> rust_usize fin -> len (it_layout (rv_iter r)) < 2 ^ 64 ->
  reserved_loop fuel c r fin = Val (o, r') ->
  (rust_reserved r' /\ it_layout (rv_iter r') = it_layout (rv_iter r)) /\ forall g, o = Some g -> rust_range g.
Proof.
  induction fuel as [|fuel IH]; intros r fin o r' H HF L; [discriminate|]. cbn [reserved_loop].
  destruct H as [HI [HD HS]].
  destruct (iter_next c (rv_iter r)) as [[p it1]| |] eqn:E; [|discriminate..]. cbn [obind].
  apply iter_next_rust in E; [|assumption..]. destruct E as [[R1 L1] F1]. destruct p as [f|].
  - destruct (F1 f eq_refl) as [[P1 T1] _].
    assert (NR : forall s, type_ f = FReserved s -> rust_str s) by (intros s TS; rewrite TS in T1; exact T1).
    assert (KEEP : forall d n, (forall s, d = Some s -> rust_str s) -> rust_usize n -> rust_reserved {| rv_iter := it1; rv_desc := d; rv_start := n |})
      by (intros; split; [|split]; assumption).
    assert (GO : forall d n, (forall s, d = Some s -> rust_str s) -> rust_usize n ->
      reserved_loop fuel c {| rv_iter := it1; rv_desc := d; rv_start := n |} (position f) = Val (o, r') ->
      (rust_reserved r' /\ it_layout (rv_iter r') = it_layout (rv_iter r)) /\ forall g, o = Some g -> rust_range g).
    { intros d n HD' HN E. rewrite <- L1. eapply IH in E; [exact E|apply KEEP; assumption|exact P1|cbn [rv_iter]; rewrite L1; exact L]. }
    destruct (type_ f) as [|m e|s], (rv_desc r) as [q|] eqn:ED.
    all: try (apply GO; [solve [discriminate|intros ? [= <-]; apply NR; reflexivity]|assumption]).
    1-2: intros [= <- <-]; split; [split; [apply KEEP; [discriminate|assumption]|assumption]|];
      intros g [= <-]; split; [apply HD; reflexivity|split; assumption].
    destruct (negb (s =? q)%string).
    + intros [= <- <-]. split; [split; [apply KEEP; [intros ? [= <-]; apply NR; reflexivity|assumption]|assumption]|].
      intros g [= <-]. split; [apply HD; reflexivity|split; assumption].
    + apply GO; [intros ? [= <-]; apply NR; reflexivity|assumption].
  - intros [= <- <-]. split.
    + split; [split; [exact R1|split; [discriminate|exact HS]]|exact L1].
    + destruct (rv_desc r) as [d|]; [|discriminate]. intros g [= <-]. split; [apply HD; reflexivity|split; assumption].
Qed.
