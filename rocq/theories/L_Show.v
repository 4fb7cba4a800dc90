(* Lemmas for C85: a text of the formatter determines what was told to it. *)
From Coq Require Import String Ascii.
From Coq Require Import ZArith Lia ZifyBool ZifyNat ZifyN.
From Verif Require Import Base G_Enums M_Raw M_Enclosure M_SystemSlots M_SystemEventLog M_Iter M_Flags M_Display M_Debug M_Hash M_Eq M_Show
  Spec S_Hash S_Text S_Show L_Base L_Utf8 L_Hardware L_Text L_Hash.
Local Open Scope string_scope.
Local Open Scope N_scope.

(* ------------------------------------------------------------------- words *)

Definition word_char (c : ascii) : bool :=
  let n := N_of_ascii c in
  ((48 <=? n) && (n <=? 57)) || ((65 <=? n) && (n <=? 90)) || ((97 <=? n) && (n <=? 122)) || (n =? 95) || (n =? 45) || (n =? 46) || (n =? 61).
Fixpoint plain_word (s : string) : bool :=
  match s with EmptyString => true | String c s => word_char c && plain_word s end.
Definition no_word_first (s : string) : bool :=
  match s with EmptyString => true | String c _ => negb (word_char c) end.
(* what can follow a value *)
Definition stop (s : string) : bool :=
  match s with
  | EmptyString => true
  | String "," _ | String ")" _ | String "]" _ => true
  | String " " (String "}" _) => true
  | _ => false
  end.
Ltac ascii_cases c := destruct c as [[] [] [] [] [] [] [] []]; try discriminate; try reflexivity.
Lemma stop_no_word s : stop s = true -> no_word_first s = true.
Proof. destruct s as [|c s]; [reflexivity|]. intros H. cbn [no_word_first]. ascii_cases c. Qed.

Lemma split_words a b c d : plain_word a = true -> plain_word b = true -> no_word_first c = true -> no_word_first d = true ->
  a ++ c = b ++ d -> a = b /\ c = d.
Proof.
  revert b. induction a as [|x a IH]; intros [|y b] HA HB HC HD E; cbn in E.
  - split; [reflexivity|exact E].
  - subst c. cbn in HB, HC. destruct (word_char y); discriminate.
  - subst d. cbn in HA, HD. destruct (word_char x); discriminate.
  - injection E as -> E. cbn in HA, HB. destruct (word_char y); [|discriminate].
    destruct (IH b HA HB HC HD E) as [-> ->]. split; reflexivity.
Qed.
Lemma plain_word_app a b : plain_word (a ++ b) = (plain_word a && plain_word b)%bool.
Proof. induction a as [|c a IH]; [reflexivity|]. cbn. rewrite IH. apply andb_assoc. Qed.

(* joining *)
Fixpoint joined (sep : string) (l : list string) : string :=
  match l with [] => "" | s :: l => sep ++ s ++ joined sep l end.
Lemma join_cons sep s l : join sep (s :: l) = s ++ joined sep l.
Proof.
  revert s. induction l as [|x l IH]; intros s; [cbn; symmetry; apply append_nil|].
  change (join sep (s :: x :: l)) with (s ++ sep ++ join sep (x :: l)). rewrite IH. reflexivity.
Qed.
Lemma words_split : forall l m a b, l <> [] -> m <> [] -> forallb plain_word l = true -> forallb plain_word m = true ->
  stop a = true -> stop b = true -> join " | " l ++ a = join " | " m ++ b -> l = m /\ a = b.
Proof.
  assert (W : forall l a, stop a = true -> no_word_first (joined " | " l ++ a) = true)
    by (intros [|s l] a H; [apply stop_no_word, H|reflexivity]).
  assert (T : forall l m a b, forallb plain_word l = true -> forallb plain_word m = true -> stop a = true -> stop b = true ->
    joined " | " l ++ a = joined " | " m ++ b -> l = m /\ a = b).
  { induction l as [|s l IH]; intros [|t m] a b HL HM HA HB E.
    - split; [reflexivity|exact E].
    - cbn in E. subst a. discriminate HA.
    - cbn in E. subst b. discriminate HB.
    - cbn in HL, HM. apply andb_true_iff in HL, HM. destruct HL as [HS HL], HM as [HT HM]. cbn [joined] in E.
      rewrite !append_assoc in E. apply (prefix_cancel " | ") in E.
      apply split_words in E; [|assumption..|apply W, HA|apply W, HB]. destruct E as [-> E].
      destruct (IH m a b HL HM HA HB E) as [-> ->]. split; reflexivity. }
  intros [|s l] [|t m] a b NL NM HL HM HA HB E; try congruence.
  cbn in HL, HM. apply andb_true_iff in HL, HM. destruct HL as [HS HL], HM as [HT HM].
  rewrite !join_cons, !append_assoc in E. apply split_words in E; [|assumption..|apply W, HA|apply W, HB].
  destruct E as [-> E]. destruct (T l m a b HL HM HA HB E) as [-> ->]. split; reflexivity.
Qed.

(* ------------------------------------------------------------- quoted texts *)

Definition codes (s : string) : list N := map N_of_ascii (list_ascii_of_string s).
Lemma codes_show l : all_bytes l -> codes (show_text l) = l.
Proof.
  intros H. induction H as [|b l HB _ IH]; [reflexivity|]. unfold codes in *. cbn. rewrite IH. f_equal.
  apply N_ascii_embedding, HB.
Qed.
Lemma codes_app a b : codes (a ++ b) = app (codes a) (codes b).
Proof. unfold codes. induction a as [|c a IH]; [reflexivity|]. cbn. rewrite IH. reflexivity. Qed.
Lemma codes_inj a b : codes a = codes b -> a = b.
Proof.
  unfold codes. revert b. induction a as [|c a IH]; intros [|d b] E; try discriminate; [reflexivity|].
  cbn in E. injection E as E1 E2. rewrite (IH b E2). f_equal. rewrite <- (ascii_N_embedding c), E1. apply ascii_N_embedding.
Qed.
Lemma show_codes s : show_text (codes s) = s.
Proof. unfold codes. induction s as [|c s IH]; [reflexivity|]. cbn. rewrite IH, ascii_N_embedding. reflexivity. Qed.
Lemma show_text_app a b : show_text (app a b) = show_text a ++ show_text b.
Proof. induction a as [|x a IH]; [reflexivity|]. cbn. rewrite IH. reflexivity. Qed.

Ltac Zify.zify_post_hook ::= Z.div_mod_to_equations.
Ltac decide_if := match goal with |- context [if ?b then _ else _] =>
  first [replace b with true by lia|replace b with false by lia] end.
Lemma chars_encode c r : scalar c -> chars (app (utf8_encode c) r) = (c, utf8_encode c) :: chars r.
Proof.
  intros H. unfold scalar in H. unfold utf8_encode.
  destruct (N.ltb_spec c 0x80). { cbn [app chars]. decide_if. reflexivity. }
  destruct (N.ltb_spec c 0x800).
  { cbn [app chars]. do 2 decide_if. do 2 f_equal. lia. }
  destruct (N.ltb_spec c 0x10000).
  { cbn [app chars]. do 3 decide_if. do 2 f_equal. lia. }
  cbn [app chars]. do 3 decide_if. do 2 f_equal. lia.
Qed.
Lemma chars_utf8 cs : Forall scalar cs -> chars (flat_map utf8_encode cs) = map (fun c => (c, utf8_encode c)) cs.
Proof.
  induction 1 as [|c cs HC _ IH]; [reflexivity|]. cbn [flat_map map]. rewrite chars_encode by exact HC. rewrite IH. reflexivity.
Qed.
Lemma encode_bytes c : scalar c -> all_bytes (utf8_encode c).
Proof.
  intros H. unfold scalar in H. unfold utf8_encode, all_bytes, is_byte.
  destruct (N.ltb_spec c 0x80); [repeat constructor; lia|]. destruct (N.ltb_spec c 0x800); [repeat constructor; lia|].
  destruct (N.ltb_spec c 0x10000); repeat constructor; lia.
Qed.
Lemma encode_split c d a b : scalar c -> scalar d -> show_text (utf8_encode c) ++ a = show_text (utf8_encode d) ++ b -> c = d /\ a = b.
Proof.
  intros HC HD E. assert (E' := f_equal codes E). rewrite !codes_app, !codes_show in E' by (apply encode_bytes; assumption).
  assert (F := f_equal chars E'). rewrite !chars_encode in F by assumption. injection F as -> _.
  split; [reflexivity|]. apply prefix_cancel in E. exact E.
Qed.
(* the characters that are shown as they are *)
Definition raw_char (u : characters) (n : N) : bool :=
  if n <? 128 then (32 <=? n) && negb (n =? 127) && negb (n =? 34) && negb (n =? 92)
  else negb (extending u n || negb (printable u n)).
Definition escaped (n : N) : string :=
  if n =? 0 then "0" else if n =? 9 then "t" else if n =? 10 then "n" else if n =? 13 then "r"
  else if n =? 34 then quote else if n =? 92 then "\" else "u{" ++ show_hex_low n ++ "}".
Lemma escape_one_eq u n l : escape_one u (n, l) = if raw_char u n then show_text l else String "\" (escaped n).
Proof.
  unfold escape_one, escaped, raw_char, backslash, escape_unicode. cbn [fst snd].
  destruct (N.eqb_spec n 0); [subst; reflexivity|]. destruct (N.eqb_spec n 9); [subst; reflexivity|].
  destruct (N.eqb_spec n 10); [subst; reflexivity|]. destruct (N.eqb_spec n 13); [subst; reflexivity|].
  destruct (N.eqb_spec n 34); [subst; reflexivity|]. destruct (N.eqb_spec n 92); [subst; reflexivity|].
  destruct (N.ltb_spec n 128).
  - destruct (N.ltb_spec n 32); cbn [orb].
    + replace (32 <=? n) with false by lia. reflexivity.
    + replace (32 <=? n) with true by lia. destruct (n =? 127); reflexivity.
  - destruct (extending u n || negb (printable u n))%bool; reflexivity.
Qed.
Lemma hex_split m n c d : m < 0x110000 -> n < 0x110000 -> no_digit_first c = true -> no_digit_first d = true ->
  show_hex_low m ++ c = show_hex_low n ++ d -> m = n /\ c = d.
Proof.
  intros HM HN. assert (L : 0x110000 < 16 ^ 64) by reflexivity.
  apply (split_reads 16); [apply show_hex_low_numeral; lia|apply show_hex_low_numeral; lia].
Qed.
Lemma scalar_small c : scalar c -> c < 0x110000. Proof. unfold scalar. lia. Qed.
Lemma escaped_split c d a b : c < 0x110000 -> d < 0x110000 -> escaped c ++ a = escaped d ++ b -> c = d /\ a = b.
Proof.
  intros HC HD. unfold escaped.
  destruct (N.eqb_spec c 0); [|destruct (N.eqb_spec c 9); [|destruct (N.eqb_spec c 10); [|destruct (N.eqb_spec c 13);
    [|destruct (N.eqb_spec c 34); [|destruct (N.eqb_spec c 92)]]]]];
  (destruct (N.eqb_spec d 0); [|destruct (N.eqb_spec d 9); [|destruct (N.eqb_spec d 10); [|destruct (N.eqb_spec d 13);
    [|destruct (N.eqb_spec d 34); [|destruct (N.eqb_spec d 92)]]]]]);
  intros E; try discriminate E; try (split; [congruence|]; cbn in E; congruence).
  cbn [append] in E. injection E as E. rewrite !append_assoc in E. apply hex_split in E; [|assumption..|reflexivity|reflexivity].
  destruct E as [-> E]. split; [reflexivity|]. cbn in E. congruence.
Qed.
(* what a character shown as it is begins with *)
Lemma raw_head u c : scalar c -> raw_char u c = true -> exists x s, show_text (utf8_encode c) = String x s /\ x <> "\"%char /\ x <> ascii_of_N 34.
Proof.
  intros HC H. unfold raw_char in H.
  assert (G : exists b l, utf8_encode c = b :: l /\ b < 256 /\ b <> 92 /\ b <> 34).
  { unfold scalar in HC. unfold utf8_encode. destruct (N.ltb_spec c 0x80).
    - replace (c <? 128) with true in H by lia. exists c, []. split; [reflexivity|]. lia.
    - destruct (N.ltb_spec c 0x800); [|destruct (N.ltb_spec c 0x10000)]; (eexists _, _; split; [reflexivity|lia]). }
  destruct G as [x [l [-> [HB [H1 H2]]]]]. cbn [show_text]. eexists _, _. split; [reflexivity|].
  split; intros E; apply (f_equal N_of_ascii) in E; rewrite N_ascii_embedding in E by exact HB; [apply H1|apply H2]; rewrite E; reflexivity.
Qed.
Definition escape_code (u : characters) (c : N) : string := escape_one u (c, utf8_encode c).
Lemma escape_split u c d a b : scalar c -> scalar d -> escape_code u c ++ a = escape_code u d ++ b -> c = d /\ a = b.
Proof.
  intros HC HD. unfold escape_code. rewrite !escape_one_eq.
  destruct (raw_char u c) eqn:RC, (raw_char u d) eqn:RD; intros E.
  - apply encode_split; assumption.
  - destruct (raw_head u c HC RC) as [x [s [F [N1 _]]]]. rewrite F in E. cbn in E. congruence.
  - destruct (raw_head u d HD RD) as [x [s [F [N1 _]]]]. rewrite F in E. cbn in E. congruence.
  - cbn [append] in E. apply escaped_split; [apply scalar_small, HC|apply scalar_small, HD|congruence].
Qed.
Lemma escape_head u c : scalar c -> exists x s, escape_code u c = String x s /\ x <> ascii_of_N 34.
Proof.
  intros HC. unfold escape_code. rewrite escape_one_eq. destruct (raw_char u c) eqn:R.
  - destruct (raw_head u c HC R) as [x [s [E [_ H]]]]. exists x, s. auto.
  - eexists _, _. split; [reflexivity|discriminate].
Qed.
Lemma escape_all_split u : forall cs ds a b, Forall scalar cs -> Forall scalar ds ->
  escape_all u (map (fun c => (c, utf8_encode c)) cs) ++ quote ++ a = escape_all u (map (fun c => (c, utf8_encode c)) ds) ++ quote ++ b ->
  cs = ds /\ a = b.
Proof.
  induction cs as [|c cs IH]; intros [|d ds] a b HC HD E; cbn [map escape_all] in E.
  - split; [reflexivity|]. apply (prefix_cancel ("" ++ quote)) in E. exact E.
  - inversion HD as [|? ? H1 H2]; subst. destruct (escape_head u d H1) as [x [s [F N1]]]. unfold escape_code in F. rewrite F in E.
    unfold quote in E. cbn [append] in E. congruence.
  - inversion HC as [|? ? H1 H2]; subst. destruct (escape_head u c H1) as [x [s [F N1]]]. unfold escape_code in F. rewrite F in E.
    unfold quote in E. cbn [append] in E. congruence.
  - inversion HC as [|? ? C1 C2]; subst. inversion HD as [|? ? D1 D2]; subst. rewrite !append_assoc in E.
    apply escape_split in E; [|assumption..]. destruct E as [-> E]. destruct (IH ds a b C2 D2 E) as [-> ->]. split; reflexivity.
Qed.
Lemma show_str_split u s t a b : utf8 s -> utf8 t -> show_str u s ++ a = show_str u t ++ b -> s = t /\ a = b.
Proof.
  intros [cs [HC ->]] [ds [HD ->]] E. unfold show_str in E. rewrite !chars_utf8 in E by assumption.
  rewrite !append_assoc in E. apply prefix_cancel in E. apply escape_all_split in E; [|assumption..].
  destruct E as [-> ->]. split; reflexivity.
Qed.

(* --------------------------------------------------------------------- trees *)

Section TreeInd.
  Variable P : tree -> Prop.
  Hypothesis on_words : forall l, P (Words l).
  Hypothesis on_quoted : forall t, P (Quoted t).
  Hypothesis on_call : forall n l, Forall P l -> P (Call n l).
  Hypothesis on_fields : forall n l, Forall (fun p => P (snd p)) l -> P (Fields n l).
  Hypothesis on_items : forall l, Forall P l -> P (Items l).
  Fixpoint tree_all (t : tree) : P t :=
    match t with
    | Words l => on_words l
    | Quoted t => on_quoted t
    | Call n l => on_call n l ((fix go (l : list tree) : Forall P l :=
        match l with [] => Forall_nil P | x :: l => Forall_cons x (tree_all x) (go l) end) l)
    | Fields n l => on_fields n l ((fix go (l : list (string * tree)) : Forall (fun p => P (snd p)) l :=
        match l with [] => Forall_nil _ | x :: l => Forall_cons x (tree_all (snd x)) (go l) end) l)
    | Items l => on_items l ((fix go (l : list tree) : Forall P l :=
        match l with [] => Forall_nil P | x :: l => Forall_cons x (tree_all x) (go l) end) l)
    end.
End TreeInd.

(* something is written *)
Definition not_blank (t : tree) : bool := match t with Words (EmptyString :: _) => false | _ => true end.
Definition some {A} (l : list A) : bool := match l with [] => false | _ => true end.
Fixpoint neat (t : tree) : bool :=
  match t with
  | Words l => some l && forallb plain_word l
  | Quoted t => from_utf8 t
  | Call n l => plain_word n && some l && forallb neat l
  | Fields n l => plain_word n && some l && forallb (fun p => match p with (n, x) => plain_word n && neat x end) l
  | Items l => forallb (fun x => not_blank x && neat x) l
  end.

(* the kind of value that a text begins with *)
Fixpoint skip_word (s : string) : string :=
  match s with EmptyString => "" | String c r => if word_char c then skip_word r else s end.
Definition kind (s : string) : nat :=
  match skip_word s with
  | String "(" _ => 2
  | String " " (String "{" _) => 3
  | String "[" _ => 4
  | String c _ => if N_of_ascii c =? 34 then 1 else 0
  | EmptyString => 0
  end.
Definition tree_kind (t : tree) : nat :=
  match t with Words _ => 0 | Quoted _ => 1 | Call _ _ => 2 | Fields _ _ => 3 | Items _ => 4 end.
Lemma skip_plain w s : plain_word w = true -> skip_word (w ++ s) = skip_word s.
Proof.
  induction w as [|c w IH]; [reflexivity|]. cbn. intros H. apply andb_true_iff in H. destruct H as [-> H]. apply IH, H.
Qed.
Lemma kind_plain w s : plain_word w = true -> kind (w ++ s) = kind s.
Proof. intros H. unfold kind. rewrite skip_plain by exact H. reflexivity. Qed.
Lemma kind_stop s : stop s = true -> kind s = 0%nat.
Proof.
  destruct s as [|c s]; [reflexivity|]. intros H. destruct c as [[] [] [] [] [] [] [] []]; try discriminate H; try reflexivity.
  destruct s as [|c s]; [discriminate H|]. ascii_cases c.
Qed.
Lemma kind_print u alt d t a : neat t = true -> stop a = true -> kind (print u alt d t ++ a) = tree_kind t.
Proof.
  intros H HA. destruct t as [[|s l]|t|n l|n l|l]; cbn [neat print tree_kind] in *.
  - discriminate H.
  - apply andb_true_iff in H. destruct H as [_ H]. cbn in H. apply andb_true_iff in H. destruct H as [H _].
    rewrite join_cons, append_assoc, kind_plain by exact H. destruct l; [apply kind_stop, HA|reflexivity].
  - reflexivity.
  - apply andb_true_iff in H. destruct H as [H _]. apply andb_true_iff in H. destruct H as [H _].
    unfold block. destruct alt; rewrite !append_assoc, kind_plain by exact H; reflexivity.
  - apply andb_true_iff in H. destruct H as [H _]. apply andb_true_iff in H. destruct H as [H _].
    unfold block. destruct alt; rewrite !append_assoc, kind_plain by exact H; reflexivity.
  - destruct l, alt; reflexivity.
Qed.

(* the fields of a block *)
Definition closing (s : string) : Prop := s = ")" \/ s = "]" \/ s = "}".
Lemma spaces_app m n : spaces (m + n) = spaces m ++ spaces n.
Proof. induction m as [|m IH]; [reflexivity|]. cbn. rewrite IH. reflexivity. Qed.
Lemma indent_S d : indent (S d) = indent d ++ "    ".
Proof. unfold indent. replace (4 * S d)%nat with (4 * d + 4)%nat by lia. rewrite spaces_app. reflexivity. Qed.
Lemma block_split {A} (f : A -> string) alt d open gap close : (gap = "" /\ (close = ")" \/ close = "]") \/ gap = " " /\ close = "}") ->
  forall l m a b, some l = true -> some m = true ->
  (forall x y a b, In x l -> In y m -> stop a = true -> stop b = true -> f x ++ a = f y ++ b -> x = y /\ a = b) ->
  block alt d open gap close (map f l) ++ a = block alt d open gap close (map f m) ++ b -> l = m /\ a = b.
Proof.
  intros HG l m a b SL SM HF E. unfold block in E. destruct alt; rewrite !append_assoc in E; apply prefix_cancel in E.
  - apply prefix_cancel in E. clear SL SM. revert m E HF. induction l as [|x l IH]; intros [|y m] E HF; cbn [map fold_right] in E.
    + split; [reflexivity|]. cbn [append] in E. apply prefix_cancel in E. apply prefix_cancel in E. exact E.
    + exfalso. cbn [append] in E. rewrite indent_S, !append_assoc in E. apply prefix_cancel in E.
      destruct HG as [[-> [-> | ->]]|[-> ->]]; discriminate E.
    + exfalso. cbn [append] in E. rewrite indent_S, !append_assoc in E. apply prefix_cancel in E.
      destruct HG as [[-> [-> | ->]]|[-> ->]]; discriminate E.
    + rewrite !append_assoc in E. apply prefix_cancel in E. apply HF in E; [|left; reflexivity|left; reflexivity|reflexivity|reflexivity].
      destruct E as [-> E]. apply prefix_cancel in E. apply prefix_cancel in E.
      destruct (IH m E) as [-> ->]; [|split; reflexivity].
      intros p q a' b' IP IQ. apply HF; right; assumption.
  - apply prefix_cancel in E. destruct l as [|x l]; [discriminate|]. destruct m as [|y m]; [discriminate|]. clear SL SM.
    cbn [map] in E. rewrite !join_cons, !append_assoc in E.
    assert (ST : forall (k : list A) z, stop (joined ", " (map f k) ++ gap ++ close ++ z) = true)
      by (intros [|p k] z; [destruct HG as [[-> [-> | ->]]|[-> ->]]; reflexivity|reflexivity]).
    assert (HF' : forall x' y' a b, In x' l -> In y' m -> stop a = true -> stop b = true -> f x' ++ a = f y' ++ b -> x' = y' /\ a = b)
      by (intros; apply HF; [right|right|..]; assumption).
    apply HF in E; [|left; reflexivity|left; reflexivity|apply ST|apply ST]. destruct E as [-> E]. clear HF.
    revert m E HF'. induction l as [|p l IH]; intros [|q m] E HF; cbn [map joined] in E.
    + split; [reflexivity|]. cbn [append] in E. apply prefix_cancel in E. apply prefix_cancel in E. exact E.
    + exfalso. destruct HG as [[-> [-> | ->]]|[-> ->]]; discriminate E.
    + exfalso. destruct HG as [[-> [-> | ->]]|[-> ->]]; discriminate E.
    + rewrite !append_assoc in E. apply prefix_cancel in E.
      apply HF in E; [|left; reflexivity|left; reflexivity|apply ST|apply ST]. destruct E as [-> E].
      destruct (IH m E) as [H1 H2]; [|split; congruence].
      intros p' q' a' b' IP IQ. apply HF; right; assumption.
Qed.

(* a value does not begin like the end of a list *)
Lemma print_begin u d t a b : neat t = true -> not_blank t = true -> print u false d t ++ a = String "]" b -> False.
Proof.
  intros H HN E. destruct t as [[|[|c s] l]|t|n l|n l|l]; cbn [neat print not_blank] in *; try discriminate.
  - apply andb_true_iff in H. destruct H as [_ H]. cbn in H. rewrite join_cons in E. cbn [append] in E. injection E as -> _. discriminate H.
  - apply andb_true_iff in H. destruct H as [H _]. apply andb_true_iff in H. destruct H as [H _].
    unfold block in E. destruct n as [|c n]; [discriminate E|]. cbn [append] in E. injection E as -> _. discriminate H.
  - apply andb_true_iff in H. destruct H as [H _]. apply andb_true_iff in H. destruct H as [H _].
    unfold block in E. destruct n as [|c n]; [discriminate E|]. cbn [append] in E. injection E as -> _. discriminate H.
  - destruct l; discriminate E.
Qed.
Lemma items_begin u alt d x l a b : forallb (fun x => not_blank x && neat x)%bool (x :: l) = true ->
  print u alt d (Items (x :: l)) ++ a = print u alt d (Items []) ++ b -> False.
Proof.
  intros H E. cbn [print] in E. unfold block in E. destruct alt; [discriminate E|].
  cbn [map] in E. rewrite join_cons in E. cbn [append] in E. injection E as E. rewrite !append_assoc in E.
  cbn [forallb] in H. apply andb_true_iff in H. destruct H as [H _]. apply andb_true_iff in H. destruct H as [H1 H2].
  apply print_begin in E; assumption.
Qed.

Theorem print_split u alt : forall t r d a b, neat t = true -> neat r = true -> stop a = true -> stop b = true ->
  print u alt d t ++ a = print u alt d r ++ b -> t = r /\ a = b.
Proof.
  intros t. induction t as [l|t|n l IH|n l IH|l IH] using tree_all; intros r d a b HT HR HA HB E;
    pose proof (f_equal kind E) as K'; rewrite !kind_print in K' by assumption;
    destruct r as [l'|t'|n' l'|n' l'|l']; try discriminate K'; clear K'.
  - cbn [print neat] in *. apply andb_true_iff in HT, HR. destruct HT as [T1 T2], HR as [R1 R2].
    apply words_split in E; try assumption; [|destruct l; [discriminate|congruence]|destruct l'; [discriminate|congruence]].
    destruct E as [-> ->]. split; reflexivity.
  - cbn [print neat] in *. apply show_str_split in E; [|apply from_utf8_iff; assumption..]. destruct E as [-> ->]. split; reflexivity.
  - cbn [print neat] in *. apply andb_true_iff in HT, HR. destruct HT as [T1 T2], HR as [R1 R2].
    apply andb_true_iff in T1, R1. destruct T1 as [T0 T1], R1 as [R0 R1].
    assert (N : n = n').
    { unfold block in E. destruct alt; rewrite !append_assoc in E; apply split_words in E; try assumption; try reflexivity; apply E. }
    subst n'. apply block_split in E; [|left; auto|assumption..|].
    + destruct E as [-> ->]. split; reflexivity.
    + intros x y a' b' IX IY SA SB. rewrite Forall_forall in IH. rewrite forallb_forall in T2, R2. apply IH; auto.
  - cbn [print neat] in *. apply andb_true_iff in HT, HR. destruct HT as [T1 T2], HR as [R1 R2].
    apply andb_true_iff in T1, R1. destruct T1 as [T0 T1], R1 as [R0 R1].
    assert (N : n = n').
    { unfold block in E. destruct alt; rewrite !append_assoc in E; apply split_words in E; try assumption; try reflexivity; apply E. }
    subst n'. apply block_split in E; [|right; auto|assumption..|].
    + destruct E as [-> ->]. split; reflexivity.
    + intros [p x] [q y] a' b' IX IY SA SB F. rewrite Forall_forall in IH. rewrite forallb_forall in T2, R2.
      specialize (T2 _ IX). specialize (R2 _ IY). cbn in T2, R2. apply andb_true_iff in T2, R2. destruct T2 as [T2 T3], R2 as [R2 R3].
      rewrite !append_assoc in F. apply split_words in F; try assumption; try reflexivity. destruct F as [-> F].
      apply prefix_cancel in F. apply (IH (q, x) IX) in F; try assumption. cbn in F. destruct F as [-> ->]. split; reflexivity.
  - cbn [neat] in HT, HR. destruct l as [|x l], l' as [|y l'].
    + split; [reflexivity|]. cbn in E. congruence.
    + symmetry in E. apply items_begin in E; [destruct E|assumption].
    + apply items_begin in E; [destruct E|assumption].
    + cbn [print] in E. apply block_split in E; [|left; auto|reflexivity|reflexivity|].
      * destruct E as [-> ->]. split; reflexivity.
      * intros p q a' b' IX IY SA SB. rewrite Forall_forall in IH. rewrite forallb_forall in HT, HR.
        specialize (HT _ IX). specialize (HR _ IY). apply andb_true_iff in HT, HR. apply IH; tauto.
Qed.

(* ------------------------------------------------------- values and their trees *)

(* the tree of a value is one the formatter's text determines, and it determines what ==
   compares of the value *)
Definition sound {A} (tr : A -> tree) (ps : A -> list part) : Prop :=
  (forall x, well_typed ps x -> neat (tr x) = true) /\
  (forall x y, well_typed ps x -> well_typed ps y -> tr x = tr y -> derived_eq (ps x) (ps y) = true).
Lemma sound_text {A} u alt d (tr : A -> tree) ps x y : sound tr ps -> well_typed ps x -> well_typed ps y ->
  print u alt d (tr x) = print u alt d (tr y) -> derived_eq (ps x) (ps y) = true.
Proof.
  intros [S1 S2] HX HY E. apply S2; [assumption..|]. rewrite <- (append_nil (print u alt d (tr x))), <- (append_nil (print u alt d (tr y))) in E.
  apply print_split in E; [apply E|apply S1; assumption|apply S1; assumption|reflexivity|reflexivity].
Qed.

Lemma derived_app a b c d : derived_eq a b = true -> derived_eq c d = true -> derived_eq (app a c) (app b d) = true.
Proof.
  revert b. induction a as [|x a IH]; intros [|y b] E F; try discriminate; [exact F|]. cbn in *.
  apply andb_true_iff in E. destruct E as [-> E]. apply IH; assumption.
Qed.
Lemma derived_tag k a b : derived_eq a b = true -> derived_eq (Tag k :: a) (Tag k :: b) = true.
Proof. intros E. cbn. rewrite N.eqb_refl. exact E. Qed.
Lemma cons_inj {A} (a b : A) l m : a :: l = b :: m -> a = b /\ l = m. Proof. intros E. split; congruence. Qed.

(* words of numbers *)
Lemma digit_word n : n < 16 -> word_char (ascii_of_N (if n <? 10 then 48 + n else 87 + n)) = true.
Proof.
  intros H. unfold word_char. rewrite N_ascii_embedding by (destruct (n <? 10); lia). destruct (N.ltb_spec n 10); lia.
Qed.
Lemma digits_plain s : all_digits s = true -> plain_word s = true.
Proof.
  induction s as [|c s IH]; [reflexivity|]. cbn. destruct (digit_value c) eqn:D; [|discriminate]. intros H.
  rewrite IH by exact H. rewrite andb_true_r. unfold digit_value in D. unfold word_char.
  destruct ((48 <=? N_of_ascii c) && (N_of_ascii c <=? 57))%bool; [reflexivity|].
  destruct (N.leb_spec 65 (N_of_ascii c)), (N.leb_spec (N_of_ascii c) 70); cbn in D; try lia;
  destruct (N.leb_spec 97 (N_of_ascii c)), (N.leb_spec (N_of_ascii c) 102); cbn in D; try discriminate; lia.
Qed.
Lemma dec_plain n : n < 2 ^ 64 -> plain_word (show_dec n) = true /\ show_dec n <> "".
Proof.
  intros H. destruct (show_dec_reads n) as [N R]; [assert (2 ^ 64 < 10 ^ 64) by reflexivity; lia|].
  split; [apply digits_plain; eapply reads_all_digits, R|exact N].
Qed.
Lemma dec_inj m n : m < 2 ^ 64 -> n < 2 ^ 64 -> show_dec m = show_dec n -> m = n.
Proof. intros HM HN. assert (2 ^ 64 < 10 ^ 64) by reflexivity. apply show_dec_inj; lia. Qed.
Lemma hex_plain n : n < 2 ^ 64 -> plain_word (show_hex_low n) = true.
Proof.
  intros H. destruct (show_hex_low_numeral n) as [[N R] _]; [assert (2 ^ 64 < 16 ^ 64) by reflexivity; lia|].
  apply digits_plain. eapply reads_all_digits, R.
Qed.
Lemma hex_inj m n : m < 2 ^ 64 -> n < 2 ^ 64 -> show_hex_low m = show_hex_low n -> m = n.
Proof.
  intros HM HN E. assert (2 ^ 64 < 16 ^ 64) by reflexivity. destruct (show_hex_low_numeral m) as [RM _]; [lia|].
  destruct (show_hex_low_numeral n) as [RN _]; [lia|]. rewrite E in RM. exact (same_reads _ _ _ _ RM RN).
Qed.
Lemma width_64 w : 2 ^ width_bits w <= 2 ^ 64.
Proof. apply N.pow_le_mono_r; [lia|]. destruct w; cbn; lia. Qed.
Lemma num_fits w n : Forall fits_type (num w n) -> n < 2 ^ 64.
Proof. intros H. inversion H as [|? ? F _]; subst. cbn in F. pose proof (width_64 w). lia. Qed.
Lemma num_eq w n m : n = m -> derived_eq (num w n) (num w m) = true.
Proof. intros ->. cbn. rewrite N.eqb_refl. reflexivity. Qed.
Lemma neat_int n : n < 2 ^ 64 -> neat (show_int n) = true.
Proof. intros H. cbn [neat show_int some forallb]. destruct (dec_plain n H) as [-> _]. reflexivity. Qed.
Lemma show_int_inj n m : n < 2 ^ 64 -> m < 2 ^ 64 -> show_int n = show_int m -> n = m.
Proof. intros HN HM E. apply dec_inj; [assumption..|]. unfold show_int in E. congruence. Qed.

Lemma int_sound w : sound show_int (num w).
Proof.
  split.
  - intros x H. apply neat_int, (num_fits w), H.
  - intros x y HX HY E. apply num_eq, show_int_inj; [apply (num_fits w), HX|apply (num_fits w), HY|exact E].
Qed.
Lemma wrapped_sound name w : plain_word name = true -> sound (show_wrapped name) (num w).
Proof.
  intros P. split.
  - intros x H. cbn [neat show_wrapped some forallb]. rewrite P, neat_int by (apply (num_fits w), H). reflexivity.
  - intros x y HX HY E. apply num_eq, show_int_inj; [apply (num_fits w), HX|apply (num_fits w), HY|].
    unfold show_wrapped in E. congruence.
Qed.
Lemma bool_sound : sound show_bool flag.
Proof. split; [intros []; reflexivity|]. intros [] []; cbn; intros _ _ E; try discriminate E; reflexivity. Qed.
Lemma str_sound : sound Quoted str.
Proof.
  split.
  - intros x H. inversion H as [|? ? F _]; subst. apply from_utf8_iff, F.
  - intros x y _ _ E. injection E as ->. cbn. rewrite (proj2 (slice_eq_iff y y) eq_refl). reflexivity.
Qed.
Lemma slice_fits l : well_typed slice l -> all_bytes l.
Proof. intros H. inversion H; assumption. Qed.
Lemma slice_same l m : l = m -> derived_eq (slice l) (slice m) = true.
Proof. intros ->. cbn. rewrite (proj2 (slice_eq_iff m m) eq_refl). reflexivity. Qed.
Lemma forallb_map {A B} (f : A -> B) p l : forallb p (map f l) = forallb (fun x => p (f x)) l.
Proof. induction l as [|x l IH]; [reflexivity|]. cbn. rewrite IH. reflexivity. Qed.
Lemma neat_bytes l : all_bytes l -> neat (show_bytes l) = true.
Proof.
  intros H. cbn [neat show_bytes]. rewrite forallb_map. apply forallb_forall. intros x I.
  pose proof (proj1 (Forall_forall _ _) H x I) as B. unfold is_byte in B.
  assert (B' : x < 2 ^ 64) by lia. rewrite neat_int by exact B'. rewrite andb_true_r.
  unfold not_blank, show_int. destruct (dec_plain x B') as [_ N]. destruct (show_dec x); [congruence|reflexivity].
Qed.
Lemma show_bytes_inj l m : all_bytes l -> all_bytes m -> show_bytes l = show_bytes m -> l = m.
Proof.
  intros HL HM E. unfold show_bytes in E. assert (E' : map show_int l = map show_int m) by congruence. clear E.
  revert m HM E'. induction HL as [|x l HX HL IH]; intros [|y m] HM E; try discriminate; [reflexivity|].
  cbn [map] in E. apply cons_inj in E. destruct E as [E1 E2]. inversion HM as [|? ? HY HM']; subst. unfold is_byte in *.
  rewrite (IH m HM' E2). f_equal. apply show_int_inj; [lia|lia|exact E1].
Qed.
Lemma bytes_sound : sound show_bytes slice.
Proof.
  split.
  - intros l H. apply neat_bytes, slice_fits, H.
  - intros l m HL HM E. apply slice_same, show_bytes_inj; [apply slice_fits, HL|apply slice_fits, HM|exact E].
Qed.
Lemma digit_inj m n a b : m < 16 -> n < 16 -> digit_low m ++ a = digit_low n ++ b -> m = n /\ a = b.
Proof.
  intros HM HN E. unfold digit_low in E. cbn [append] in E. split; [|congruence].
  assert (E' : ascii_of_N (if m <? 10 then 48 + m else 87 + m) = ascii_of_N (if n <? 10 then 48 + n else 87 + n)) by congruence.
  apply (f_equal N_of_ascii) in E'. destruct (N.ltb_spec m 10), (N.ltb_spec n 10); rewrite !N_ascii_embedding in E' by lia; lia.
Qed.
Lemma digit_plain n : n < 16 -> plain_word (digit_low n) = true.
Proof. intros H. cbn. rewrite digit_word by exact H. reflexivity. Qed.
Lemma hyphenated_plain p l : all_bytes l -> plain_word (hyphenated p l) = true.
Proof.
  intros H. revert p. induction H as [|b l HB _ IH]; intros p; [reflexivity|]. cbn [hyphenated]. unfold is_byte in HB.
  rewrite !plain_word_app, IH, !digit_plain by lia. destruct p as [|[|[|[|[|[|[|[|[|[|[|p]]]]]]]]]]]; reflexivity.
Qed.
Lemma hyphenated_inj p l m : all_bytes l -> all_bytes m -> hyphenated p l = hyphenated p m -> l = m.
Proof.
  intros H. revert p m. induction H as [|b l HB _ IH]; intros p [|c m] HM E.
  - reflexivity.
  - exfalso. cbn [hyphenated] in E. unfold digit_low in E. destruct p as [|[|[|[|[|[|[|[|[|[|[|p]]]]]]]]]]]; discriminate E.
  - exfalso. cbn [hyphenated] in E. unfold digit_low in E. destruct p as [|[|[|[|[|[|[|[|[|[|[|p]]]]]]]]]]]; discriminate E.
  - inversion HM as [|? ? HC HM']; subst. cbn [hyphenated] in E. apply prefix_cancel in E. unfold is_byte in *.
    apply digit_inj in E; [|lia..]. destruct E as [E1 E]. apply digit_inj in E; [|lia..]. destruct E as [E2 E].
    rewrite (IH _ _ HM' E). f_equal. lia.
Qed.
Lemma uuid_sound : sound show_uuid slice.
Proof.
  split.
  - intros l H. cbn [neat show_uuid some forallb]. rewrite hyphenated_plain by (apply slice_fits, H). reflexivity.
  - intros l m HL HM E. apply slice_same, (hyphenated_inj 0); [apply slice_fits, HL|apply slice_fits, HM|]. unfold show_uuid in E. congruence.
Qed.
Lemma option_sound {A} (tr : A -> tree) ps : sound tr ps -> sound (show_option tr) (option_parts ps).
Proof.
  intros [S1 S2]. split.
  - intros [x|] H; [|reflexivity]. inversion H; subst. cbn [neat show_option some forallb]. rewrite S1 by assumption. reflexivity.
  - intros [x|] [y|] HX HY E; try discriminate E; [|reflexivity]. inversion HX; subst. inversion HY; subst.
    apply derived_tag. apply S2; [assumption..|]. cbn [show_option] in E. congruence.
Qed.

(* enumerations with a field of at most one integer *)
Fixpoint place_of (n : string) (l : list string) (k : N) : option N :=
  match l with [] => None | x :: l => if (x =? n)%string then Some k else place_of n l (k + 1) end.
Lemma variant_sound {A} w (name : A -> string) (tag : A -> N) value names :
  (forall x, place_of (name x) names 0 = Some (tag x)) -> forallb plain_word names = true ->
  sound (fun x => show_variant (name x) (value x)) (fun x => variant_parts w (tag x) (value x)).
Proof.
  intros HP HN. assert (PW : forall x, plain_word (name x) = true).
  { intros x. specialize (HP x). revert HP. generalize 0. rewrite forallb_forall in HN. induction names as [|n l IH]; intros k E; [discriminate|].
    cbn [place_of] in E. destruct (String.eqb_spec n (name x)) as [<-|]; [apply HN; left; reflexivity|].
    apply IH in E; [exact E|intros y I; apply HN; right; exact I]. }
  split.
  - intros x H. unfold show_variant. unfold well_typed, variant_parts in H. inversion H as [|? ? _ H']; subst.
    destruct (value x); [|cbn; rewrite PW; reflexivity]. cbn [neat some forallb]. rewrite PW, neat_int by (apply (num_fits w), H'). reflexivity.
  - intros x y HX HY E. unfold well_typed, variant_parts in *. inversion HX as [|? ? _ HX']; subst. inversion HY as [|? ? _ HY']; subst.
    assert (T : name x = name y) by (unfold show_variant in E; destruct (value x), (value y); congruence).
    assert (TT : tag x = tag y) by (pose proof (HP x) as P1; pose proof (HP y) as P2; rewrite T in P1; congruence).
    rewrite TT. apply derived_tag. unfold show_variant in E. destruct (value x), (value y); try discriminate E; [|reflexivity].
    apply (num_eq w), show_int_inj; [apply (num_fits w), HX'|apply (num_fits w), HY'|congruence].
Qed.

(* structs *)
Definition fields_tell {A} (fs : A -> list (string * tree)) (ps : A -> list part) : Prop :=
  (forall x, well_typed ps x -> some (fs x) && forallb (fun p => match p with (n, x) => plain_word n && neat x end) (fs x) = true)%bool /\
  (forall x y, well_typed ps x -> well_typed ps y -> fs x = fs y -> derived_eq (ps x) (ps y) = true).
Definition args_tell {A} (fs : A -> list tree) (ps : A -> list part) : Prop :=
  (forall x, well_typed ps x -> some (fs x) && forallb neat (fs x) = true)%bool /\
  (forall x y, well_typed ps x -> well_typed ps y -> fs x = fs y -> derived_eq (ps x) (ps y) = true).
Lemma last_field {A B} field (proj : A -> B) tr ps : sound tr ps -> plain_word field = true ->
  fields_tell (fun x => [(field, tr (proj x))]) (fun x => ps (proj x)).
Proof.
  intros [S1 S2] P. split.
  - intros x H. cbn. rewrite P, S1 by exact H. reflexivity.
  - intros x y HX HY E. apply S2; [assumption..|congruence].
Qed.
Lemma then_field {A B} field (proj : A -> B) tr ps fs qs : sound tr ps -> plain_word field = true -> fields_tell fs qs ->
  fields_tell (fun x => (field, tr (proj x)) :: fs x) (fun x => app (ps (proj x)) (qs x)).
Proof.
  intros [S1 S2] P [F1 F2]. split.
  - intros x H. apply Forall_app in H. destruct H as [H1 H2]. cbn. rewrite P, S1 by exact H1.
    specialize (F1 x H2). apply andb_true_iff in F1. destruct F1 as [_ ->]. reflexivity.
  - intros x y HX HY E. apply Forall_app in HX, HY. destruct HX, HY. apply cons_inj in E. destruct E as [E1 E2].
    apply derived_app; [apply S2; [assumption..|congruence]|apply F2; assumption].
Qed.
Lemma fields_sound {A} name (fs : A -> list (string * tree)) ps : fields_tell fs ps -> plain_word name = true ->
  sound (fun x => Fields name (fs x)) ps.
Proof.
  intros [F1 F2] P. split.
  - intros x H. cbn [neat]. rewrite P. apply F1, H.
  - intros x y HX HY E. apply F2; [assumption..|congruence].
Qed.
Lemma last_arg {A B} (proj : A -> B) tr ps : sound tr ps -> args_tell (fun x => [tr (proj x)]) (fun x => ps (proj x)).
Proof.
  intros [S1 S2]. split.
  - intros x H. cbn. rewrite S1 by exact H. reflexivity.
  - intros x y HX HY E. apply S2; [assumption..|congruence].
Qed.
Lemma then_arg {A B} (proj : A -> B) tr ps fs qs : sound tr ps -> args_tell fs qs ->
  args_tell (fun x => tr (proj x) :: fs x) (fun x => app (ps (proj x)) (qs x)).
Proof.
  intros [S1 S2] [F1 F2]. split.
  - intros x H. apply Forall_app in H. destruct H as [H1 H2]. cbn. rewrite S1 by exact H1.
    specialize (F1 x H2). apply andb_true_iff in F1. destruct F1 as [_ ->]. reflexivity.
  - intros x y HX HY E. apply Forall_app in HX, HY. destruct HX, HY. apply cons_inj in E. destruct E as [E1 E2].
    apply derived_app; [apply S2; [assumption..|congruence]|apply F2; assumption].
Qed.
Lemma call_sound {A} name (fs : A -> list tree) ps : args_tell fs ps -> plain_word name = true -> sound (fun x => Call name (fs x)) ps.
Proof.
  intros [F1 F2] P. split.
  - intros x H. cbn [neat]. rewrite P. apply F1, H.
  - intros x y HX HY E. apply F2; [assumption..|congruence].
Qed.

(* flag types *)
Definition is_hex (s : string) : bool := match s with String "0" _ => true | _ => false end.
Fixpoint distinct (l : list string) : bool :=
  match l with [] => true | x :: l => negb (existsb (String.eqb x) l) && distinct l end.
Definition flags_ok (cs : constants) : bool :=
  distinct (map fst cs) && forallb (fun p => plain_word (fst p) && negb (is_hex (fst p))) cs.
Lemma iter_incl cs s r : incl (iter_names_loop s r cs) cs.
Proof.
  revert r. induction cs as [|[n b] cs IH]; intros r; [apply incl_refl|]. cbn [iter_names_loop].
  destruct (contains s b && intersects r b)%bool; [|apply incl_tl, IH].
  apply incl_cons; [left; reflexivity|apply incl_tl, IH].
Qed.
Lemma iter_contained cs s r p : In p (iter_names_loop s r cs) -> contains s (snd p) = true.
Proof.
  revert r. induction cs as [|[n b] cs IH]; intros r I; [destruct I|]. cbn [iter_names_loop] in I.
  destruct (contains s b && intersects r b)%bool eqn:C; [|eapply IH, I].
  destruct I as [<-|I]; [|eapply IH, I]. apply andb_true_iff in C. apply C.
Qed.
Lemma covered_inside cs x : N.land x (covered cs x) = covered cs x.
Proof.
  unfold covered, iter_names. assert (H : forall p, In p (iter_names_loop x x cs) -> N.land x (snd p) = snd p)
    by (intros p I; apply N.eqb_eq, (iter_contained cs x x p I)).
  induction (iter_names_loop x x cs) as [|p l IH]; [apply N.land_0_r|]. cbn [map fold_right].
  rewrite N.land_lor_distr_r, IH by (intros q I; apply H; right; exact I). f_equal. apply H. left. reflexivity.
Qed.
Lemma bits_back cs x : x = N.lor (N.ldiff x (covered cs x)) (covered cs x).
Proof. rewrite <- (covered_inside cs x) at 2. rewrite N.lor_ldiff_and. reflexivity. Qed.
Lemma names_inj (cs a b : constants) : distinct (map fst cs) = true -> incl a cs -> incl b cs -> map fst a = map fst b -> a = b.
Proof.
  intros D. assert (U : forall n x y, In (n, x) cs -> In (n, y) cs -> x = y).
  { induction cs as [|[m k] cs IH]; intros n x y IX IY; [destruct IX|]. cbn in D. apply andb_true_iff in D. destruct D as [D1 D2].
    assert (N : forall z, In (m, z) cs -> False).
    { intros z I. apply negb_true_iff in D1. assert (T : existsb (String.eqb m) (map fst cs) = true)
        by (apply existsb_exists; exists m; split; [apply (in_map (@fst string N) _ (m, z)), I|apply String.eqb_refl]). congruence. }
    destruct IX as [EX|IX], IY as [EY|IY].
    - congruence.
    - injection EX as -> ->. destruct (N _ IY).
    - injection EY as -> ->. destruct (N _ IX).
    - exact (IH D2 n x y IX IY). }
  revert b. induction a as [|[n x] a IH]; intros [|[m y] b] IA IB E; try discriminate; [reflexivity|].
  cbn [map fst] in E. apply cons_inj in E. destruct E as [-> E].
  rewrite (U m x y (IA _ (or_introl eq_refl)) (IB _ (or_introl eq_refl))). f_equal.
  apply IH; [intros p I; apply IA; right; exact I|intros p I; apply IB; right; exact I|exact E].
Qed.
Lemma ldiff_le x y : N.ldiff x y <= x.
Proof. apply N.ldiff_le, N.bits_inj_0. intros n. rewrite !N.ldiff_spec. destruct (N.testbit x n), (N.testbit y n); reflexivity. Qed.
Lemma filter_none {A} (f : A -> bool) l : forallb (fun x => negb (f x)) l = true -> filter f l = [].
Proof. induction l as [|x l IH]; [reflexivity|]. cbn. destruct (f x); [discriminate|]. exact IH. Qed.
Lemma filter_all {A} (f : A -> bool) l : forallb f l = true -> filter f l = l.
Proof. induction l as [|x l IH]; [reflexivity|]. cbn. destruct (f x); [|discriminate]. intros H. rewrite IH by exact H. reflexivity. Qed.
Lemma flag_words_inj cs x y : flags_ok cs = true -> x < 2 ^ 64 -> y < 2 ^ 64 -> flag_words cs x = flag_words cs y -> x = y.
Proof.
  intros OK HX HY E. unfold flags_ok in OK. apply andb_true_iff in OK. destruct OK as [D P].
  set (rest := fun x => if is_empty x then ["0x0"] else
    if is_empty (N.ldiff x (covered cs x)) then [] else ["0x" ++ show_hex_low (N.ldiff x (covered cs x))]).
  assert (ZN : iter_names cs 0 = []).
  { unfold iter_names. generalize cs. intros l. induction l as [|[n b] l IH]; [reflexivity|]. cbn [iter_names_loop].
    unfold contains, intersects. rewrite N.land_0_l. cbn [N.eqb negb]. rewrite andb_false_r. exact IH. }
  assert (W : forall x, flag_words cs x = app (map fst (iter_names cs x)) (rest x)).
  { intros z. unfold flag_words, rest. destruct (is_empty z) eqn:Z; [|reflexivity]. apply N.eqb_eq in Z. subst z. rewrite ZN. reflexivity. }
  assert (HR : forall x, forallb is_hex (rest x) = true)
    by (intros z; unfold rest; destruct (is_empty z); [reflexivity|]; destruct (is_empty _); reflexivity).
  assert (HN : forall x, forallb (fun s => negb (is_hex s)) (map fst (iter_names cs x)) = true).
  { intros z. apply forallb_forall. intros s I. apply in_map_iff in I. destruct I as [p [<- I]]. apply iter_incl in I.
    rewrite forallb_forall in P. specialize (P p I). apply andb_true_iff in P. apply P. }
  rewrite !W in E.
  assert (ER : rest x = rest y).
  { apply (f_equal (filter is_hex)) in E. rewrite !filter_app, !(filter_none is_hex (map _ _)) in E by apply HN.
    rewrite !filter_all in E by apply HR. exact E. }
  assert (EN : map fst (iter_names cs x) = map fst (iter_names cs y)).
  { apply (f_equal (filter (fun s => negb (is_hex s)))) in E. rewrite !filter_app, !(filter_all _ (map _ _)) in E by apply HN.
    rewrite !(filter_none _ (rest _)), !app_nil_r in E; [exact E|..].
    - rewrite <- (HR y). clear. induction (rest y) as [|s l IH]; [reflexivity|]. cbn. rewrite negb_involutive, IH. reflexivity.
    - rewrite <- (HR x). clear. induction (rest x) as [|s l IH]; [reflexivity|]. cbn. rewrite negb_involutive, IH. reflexivity. }
  apply (names_inj cs) in EN; [|exact D|apply iter_incl|apply iter_incl].
  assert (EC : covered cs x = covered cs y) by (unfold covered; rewrite EN; reflexivity).
  assert (ED : N.ldiff x (covered cs x) = N.ldiff y (covered cs y)).
  { assert (LX := ldiff_le x (covered cs x)). assert (LY := ldiff_le y (covered cs y)). revert ER. unfold rest, is_empty.
    destruct (N.eqb_spec x 0) as [X0|X0], (N.eqb_spec y 0) as [Y0|Y0];
    destruct (N.eqb_spec (N.ldiff x (covered cs x)) 0) as [RX|RX], (N.eqb_spec (N.ldiff y (covered cs y)) 0) as [RY|RY]; intros ER;
    try discriminate ER; try lia.
    - apply (f_equal (fun l => match l with String _ (String _ s) :: _ => s | _ => "" end)) in ER. change "0" with (show_hex_low 0) in ER.
      apply hex_inj in ER; lia.
    - apply (f_equal (fun l => match l with String _ (String _ s) :: _ => s | _ => "" end)) in ER. change "0" with (show_hex_low 0) in ER.
      apply hex_inj in ER; lia.
    - apply (f_equal (fun l => match l with String _ (String _ s) :: _ => s | _ => "" end)) in ER. cbn [append] in ER.
      apply hex_inj in ER; lia. }
  rewrite (bits_back cs x), (bits_back cs y), ED, EC. reflexivity.
Qed.
Lemma flags_sound name cs w : flags_ok cs && plain_word name = true -> sound (show_flags name cs) (num w).
Proof.
  intros OK. apply andb_true_iff in OK. destruct OK as [OK P]. split.
  - intros x H. apply num_fits in H. cbn [neat show_flags some forallb]. rewrite P.
    assert (S : some (flag_words cs x) = true).
    { unfold flag_words. destruct (is_empty x) eqn:Z; [reflexivity|]. destruct (is_empty (N.ldiff x (covered cs x))) eqn:R.
      - rewrite app_nil_r. unfold covered in R. destruct (iter_names cs x) as [|p l]; [|reflexivity].
        cbn in R. rewrite N.ldiff_0_r in R. congruence.
      - destruct (map fst (iter_names cs x)); reflexivity. }
    assert (W : forallb plain_word (flag_words cs x) = true).
    { unfold flag_words. destruct (is_empty x); [reflexivity|]. rewrite forallb_app. apply andb_true_iff. split.
      - apply forallb_forall. intros s I. apply in_map_iff in I. destruct I as [p [<- I]]. apply iter_incl in I.
        apply andb_true_iff in OK. destruct OK as [_ OK]. rewrite forallb_forall in OK. specialize (OK p I). apply andb_true_iff in OK. apply OK.
      - destruct (is_empty _); [reflexivity|]. cbn [forallb append plain_word]. pose proof (ldiff_le x (covered cs x)).
        rewrite hex_plain by lia. reflexivity. }
    rewrite S, W. reflexivity.
  - intros x y HX HY E. apply num_eq, (flag_words_inj cs); [exact OK|apply (num_fits w), HX|apply (num_fits w), HY|].
    unfold show_flags in E. congruence.
Qed.

(* the types around slices of records *)
Lemma neat_chunks l n : all_bytes l -> n < 2 ^ 64 -> neat (show_chunks l n) = true.
Proof. intros HL HN. unfold show_chunks. cbn [neat some forallb]. rewrite neat_bytes, neat_int by assumption. reflexivity. Qed.
Lemma chunks_inj l m a b : all_bytes l -> all_bytes m -> a < 2 ^ 64 -> b < 2 ^ 64 -> show_chunks l a = show_chunks m b -> l = m /\ a = b.
Proof.
  intros HL HM HA HB E. unfold show_chunks in E. split; [apply show_bytes_inj|apply show_int_inj]; try assumption; congruence.
Qed.
Lemma peers_sound : sound PeerDevices_tree peers.
Proof.
  split.
  - intros x H. inversion H; subst. unfold PeerDevices_tree. cbn [neat some forallb]. rewrite neat_chunks by (assumption || reflexivity). reflexivity.
  - intros x y HX HY E. inversion HX; subst. inversion HY; subst. cbn. rewrite andb_true_r. apply peers_eq_chunks.
    unfold PeerDevices_tree in E. assert (F : show_chunks (peer_chunks x) 5 = show_chunks (peer_chunks y) 5) by congruence.
    apply chunks_inj in F; [apply F|assumption|assumption|reflexivity|reflexivity].
Qed.
Lemma descriptors_sound : sound EventLogTypeDescriptors_tree descriptors.
Proof.
  split.
  - intros x H. inversion H as [|? ? F _]; subst. destruct F. unfold EventLogTypeDescriptors_tree. cbn [neat some forallb].
    rewrite neat_chunks by assumption. reflexivity.
  - intros x y HX HY E. inversion HX as [|? ? F _]; subst. inversion HY as [|? ? G _]; subst. destruct F, G. cbn. rewrite andb_true_r.
    unfold EventLogTypeDescriptors_tree in E.
    assert (F : show_chunks (descriptors_data x) (descriptors_size x) = show_chunks (descriptors_data y) (descriptors_size y)) by congruence.
    apply chunks_inj in F; [|assumption..]. destruct F as [F1 F2]. apply descriptors_eq_chunks. rewrite F1, F2. reflexivity.
Qed.
Lemma elements_sound c : sound (ContainedElements_tree c) elements.
Proof.
  assert (U : forall x, ce_record_length x < 256 -> ContainedElements_chunk_size c x < 2 ^ 64).
  { intros x H. unfold ContainedElements_chunk_size. destruct (_ || _)%bool; [|lia]. destruct c as [? ? []]; reflexivity. }
  split.
  - intros x H. inversion H as [|? ? F _]; subst. destruct F as [F1 [F2 F3]]. unfold ContainedElements_tree. cbn [neat some forallb].
    rewrite neat_chunks, !neat_int by (assumption || lia || (apply U; assumption)). reflexivity.
  - intros x y HX HY E. inversion HX as [|? ? F _]; subst. inversion HY as [|? ? G _]; subst. destruct F as [F1 [F2 F3]], G as [G1 [G2 G3]].
    unfold ContainedElements_tree in E.
    assert (Q1 : show_chunks (ce_chunks x) (ContainedElements_chunk_size c x) = show_chunks (ce_chunks y) (ContainedElements_chunk_size c y)) by congruence.
    assert (Q2 : show_int (ce_count x) = show_int (ce_count y)) by congruence.
    assert (Q3 : show_int (ce_record_length x) = show_int (ce_record_length y)) by congruence.
    apply chunks_inj in Q1; [|assumption|assumption|apply U; assumption|apply U; assumption]. destruct Q1 as [Q1 _].
    apply show_int_inj in Q2; [|lia..]. apply show_int_inj in Q3; [|lia..].
    cbn. rewrite andb_true_r. apply elements_eq_chunks. rewrite Q1, Q2, Q3. repeat split; reflexivity.
Qed.

(* enumerations with other fields: tactics for L_GShow *)
Lemma neat_call name l : plain_word name = true -> some l = true -> Forall (fun t => neat t = true) l -> neat (Call name l) = true.
Proof.
  intros P S H. cbn [neat]. rewrite P, S. cbn [andb]. apply forallb_forall. rewrite Forall_forall in H. exact H.
Qed.
Lemma neat_fields name l : plain_word name = true -> some l = true -> Forall (fun p => plain_word (fst p) = true /\ neat (snd p) = true) l ->
  neat (Fields name l) = true.
Proof.
  intros P S H. cbn [neat]. rewrite P, S. cbn [andb]. apply forallb_forall. rewrite Forall_forall in H. intros [n t] I.
  destruct (H _ I) as [H1 H2]. cbn in H1, H2. rewrite H1, H2. reflexivity.
Qed.
Lemma call_inj n m l k : Call n l = Call m k -> l = k. Proof. congruence. Qed.
Lemma fields_inj n m l k : Fields n l = Fields m k -> l = k. Proof. congruence. Qed.
Lemma pair_inj {A B} (a b : A) (x y : B) : (a, x) = (b, y) -> x = y. Proof. congruence. Qed.
Ltac take_apart :=
  repeat match goal with
  | H : well_typed _ _ |- _ => unfold well_typed in H; cbn beta iota in H
  | H : Forall fits_type (Tag _ :: _) |- _ => apply Forall_inv_tail in H
  | H : Forall fits_type (app _ _) |- _ => apply Forall_app in H; destruct H
  | E : Call _ _ = Call _ _ |- _ => apply call_inj in E
  | E : Fields _ _ = Fields _ _ |- _ => apply fields_inj in E
  | E : @cons _ _ _ = @cons _ _ _ |- _ => apply cons_inj in E; destruct E
  | E : (_, _) = (_, _) |- _ => apply pair_inj in E
  end.
Ltac enum_neat :=
  take_apart;
  first [reflexivity
        |(apply neat_call || apply neat_fields);
         [reflexivity|reflexivity|repeat (apply Forall_cons || apply Forall_nil || (split; [reflexivity|])); cbn [snd]]].
Ltac enum_told :=
  take_apart; apply derived_tag; first [reflexivity|repeat apply derived_app].
Definition tree_name (t : tree) : string := match t with Call n _ => n | _ => "" end.
Lemma neat_call1 name t : plain_word name = true -> neat t = true -> neat (Call name [t]) = true.
Proof. intros P H. cbn [neat some forallb]. rewrite P, H. reflexivity. Qed.
Lemma told_call1 {A} k name (tr : A -> tree) ps x y :
  (forall x y, well_typed ps x -> well_typed ps y -> tr x = tr y -> derived_eq (ps x) (ps y) = true) ->
  Forall fits_type (Tag k :: ps x) -> Forall fits_type (Tag k :: ps y) -> Call name [tr x] = Call name [tr y] ->
  derived_eq (Tag k :: ps x) (Tag k :: ps y) = true.
Proof.
  intros S HX HY E. apply derived_tag, S; [apply Forall_inv_tail in HX; exact HX|apply Forall_inv_tail in HY; exact HY|congruence].
Qed.
