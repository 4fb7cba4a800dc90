(* Lemmas for the theorems on displayed texts. *)
From Coq Require Import String Ascii.
From Coq Require Import ZArith Lia ZifyBool ZifyNat ZifyN.
From Verif Require Import Base G_Enums M_Raw M_Entry M_Bios M_Processor M_Enclosure M_SystemSlots M_SystemEventLog M_PortableBattery
  M_Display Spec S_Enums S_Text S_EnumTexts L_Base L_Enums L_Hardware L_Slots L_Text.
Local Open Scope string_scope.
Local Open Scope N_scope.
Ltac Zify.zify_post_hook ::= Z.div_mod_to_equations.

(* ------------------------------------------------------------ finite checks *)

(* A table of texts as a binary tree, to look up the number of a text.  Nothing is
   proved about the tree: that each text leads back to its number is checked. *)
Inductive tree : Type := Leaf | Node (l : tree) (v : option N) (r : tree).
Fixpoint get (p : positive) (t : tree) : option N :=
  match t with
  | Leaf => None
  | Node l v r => match p with xH => v | xO p => get p l | xI p => get p r end
  end.
Fixpoint put (p : positive) (x : N) (t : tree) : tree :=
  match p with
  | xH => match t with Leaf => Node Leaf (Some x) Leaf | Node l _ r => Node l (Some x) r end
  | xO p => match t with Leaf => Node (put p x Leaf) None Leaf | Node l v r => Node (put p x l) v r end
  | xI p => match t with Leaf => Node Leaf None (put p x Leaf) | Node l v r => Node l v (put p x r) end
  end.
Definition bit (b : bool) (p : positive) : positive := if b then xI p else xO p.
Fixpoint key (s : string) : positive :=
  match s with
  | EmptyString => xH
  | String (Ascii b0 b1 b2 b3 b4 b5 b6 b7) s => bit b0 (bit b1 (bit b2 (bit b3 (bit b4 (bit b5 (bit b6 (bit b7 (key s))))))))
  end.
Definition leads_back (l : list (N * string)) : bool :=
  let t := fold_right (fun e t => put (key (snd e)) (fst e) t) Leaf l in
  forallb (fun e => match get (key (snd e)) t with Some x => x =? fst e | None => false end) l.
Lemma leads_back_ok l : leads_back l = true -> forall a b s, In (a, s) l -> In (b, s) l -> a = b.
Proof.
  unfold leads_back. generalize (fold_right (fun e t => put (key (snd e)) (fst e) t) Leaf l). cbv zeta. intros t H a b s HA HB.
  rewrite forallb_forall in H. pose proof (H _ HA) as A. pose proof (H _ HB) as B. cbn [fst snd] in A, B.
  destruct (get (key s) t) as [x|]; [|discriminate A]. apply N.eqb_eq in A, B. congruence.
Qed.
Definition table (n : nat) (f : N -> string) : list (N * string) := map (fun k => (k, f k)) (below n).
Lemma table_distinct n f : leads_back (table n f) = true -> distinct_on (fun k => k < N.of_nat n) f.
Proof.
  intros H x y HX HY E. apply (leads_back_ok _ H x y (f x)).
  - apply in_map_iff. exists x. split; [reflexivity|apply below_in, HX].
  - apply in_map_iff. exists y. split; [rewrite E; reflexivity|apply below_in, HY].
Qed.

Lemma byte_texts_distinct alt name f : In (name, f) (byte_texts alt) -> distinct_on is_byte f.
Proof.
  intros H. change is_byte with (fun k => k < N.of_nat 256). apply table_distinct.
  assert (A : forallb (fun p => leads_back (table 256 (snd p))) (byte_texts alt) = true)
    by (destruct alt; vm_compute; reflexivity).
  rewrite forallb_forall in A. specialize (A _ H). exact A.
Qed.
Lemma undefined_texts_numeral alt name named f k : In (name, named, f) (undefined_texts alt) -> k < 256 -> ~ In k named ->
  exists s, f k = "Undefined: " ++ s /\ numeral 10 s k.
Proof.
  intros H HK HN. exists (show_dec k). split; [|apply show_dec_numeral; change (10 ^ 64) with 10000000000000000000000000000000000000000000000000000000000000000; lia].
  assert (A : forallb (fun p => forallb (fun k => existsb (N.eqb k) (snd (fst p)) || (snd p k =? "Undefined: " ++ show_dec k)%string) (below 256))
                      (undefined_texts alt) = true) by (destruct alt; vm_compute; reflexivity).
  rewrite forallb_forall in A. specialize (A _ H). cbn [fst snd] in A. rewrite forallb_forall in A.
  specialize (A k (below_in 256 k HK)). apply orb_true_iff in A. destruct A as [A|A].
  - apply existsb_exists in A. destruct A as [x [X1 X2]]. apply N.eqb_eq in X2. subst x. contradiction.
  - apply String.eqb_eq in A. exact A.
Qed.

(* processor families: everything but a range of unassigned codes is finite *)
Definition family_text (alt : bool) (k : N) : string := ProcessorFamily_display alt (ProcessorFamily_from k).
Definition family_small : list N := below 0x203 ++ [0xFFFE; 0xFFFF].
Lemma family_available_value k : 0x203 <= k -> k <= 0xFFFD -> ProcessorFamily_from k = ProcessorFamily_Available k.
Proof.
  intros H1 H2. rewrite ProcessorFamily_from_meaning by lia. unfold meaning.
  assert (N : named ProcessorFamily_codes k = None).
  { assert (A : forallb (fun p => (fst p <? 0x203) || (0xFFFD <? fst p)) ProcessorFamily_codes = true) by (vm_compute; reflexivity).
    revert A. induction ProcessorFamily_codes as [|[a x] l IH]; intros A; [reflexivity|]. cbn [forallb fst] in A. cbn [named].
    apply andb_true_iff in A. destruct A as [A1 A2]. destruct (N.eqb_spec k a); [lia|]. apply IH, A2. }
  rewrite N. unfold ProcessorFamily_other. destruct (N.eqb_spec k 0xFF); [lia|]. destruct (N.eqb_spec k 0xFFFF); [lia|].
  reflexivity.
Qed.
Lemma family_available alt k : 0x203 <= k -> k <= 0xFFFD -> family_text alt k = "Available 0x" ++ show_hex k.
Proof. intros H1 H2. unfold family_text. rewrite family_available_value by assumption. destruct alt; reflexivity. Qed.
Lemma family_distinct alt : distinct_on (fun k => k < 65536) (family_text alt).
Proof.
  assert (C : leads_back (map (fun k => (k, family_text alt k)) family_small) = true) by (destruct alt; vm_compute; reflexivity).
  assert (P : forallb (fun k => negb (prefix "Available 0x" (family_text alt k)) ||
                                (family_text alt k =? "Available 0x" ++ show_hex k)%string) family_small = true)
    by (destruct alt; vm_compute; reflexivity).
  rewrite forallb_forall in P.
  assert (S : forall k, k < 65536 -> (0x203 <= k <= 0xFFFD) \/ In k family_small).
  { intros k H. destruct (N.lt_ge_cases k 0x203) as [L|L].
    - right. apply in_or_app. left. apply below_in. exact L.
    - destruct (N.le_gt_cases k 0xFFFD) as [L2|L2]; [left; lia|right].
      apply in_or_app. right. cbn [In]. lia. }
  assert (PF : forall p s, prefix p (p ++ s) = true).
  { induction p as [|c p IH]; intros s; [destruct s; reflexivity|]. cbn. destruct (Ascii.ascii_dec c c); [apply IH|contradiction]. }
  assert (big : 16 ^ 64 = 115792089237316195423570985008687907853269984665640564039457584007913129639936) by reflexivity.
  assert (HX : forall a b, a < 65536 -> b < 65536 -> show_hex a = show_hex b -> a = b).
  { intros a b HA HB E. apply (same_reads 16 (show_hex a)); [apply show_hex_reads; lia|rewrite E; apply show_hex_reads; lia]. }
  assert (G : forall x y, x < 65536 -> y < 65536 -> 0x203 <= x <= 0xFFFD -> In y family_small -> family_text alt x = family_text alt y -> x = y).
  { intros x y LX LY RX IY E. rewrite (family_available alt x) in E by lia. specialize (P y IY).
    rewrite <- E, PF in P. cbn [negb orb] in P. apply String.eqb_eq in P. apply prefix_cancel in P. apply HX; assumption. }
  intros x y HX' HY E. destruct (S x HX') as [RX|IX], (S y HY) as [RY|IY].
  - rewrite !family_available in E by lia. apply prefix_cancel in E. apply HX; assumption.
  - apply G; assumption.
  - symmetry. apply G; [assumption..|symmetry; exact E].
  - apply (leads_back_ok _ C x y (family_text alt x)).
    + apply in_map_iff. exists x. auto.
    + apply in_map_iff. exists y. rewrite E. auto.
Qed.

(* --------------------------------------------------------------- tenths *)

Lemma nearest_even_near a b : b <> 0 -> 2 * a <= 2 * b * nearest_even a b + b /\ 2 * b * nearest_even a b <= 2 * a + b.
Proof.
  intros HB. unfold nearest_even. pose proof (N.div_mod a b HB) as D. pose proof (N.mod_lt a b HB) as M.
  set (q := a / b) in *. set (r := a mod b) in *. clearbody q r.
  destruct ((2 * r <? b) || ((2 * r =? b) && N.even q)) eqn:E; nia.
Qed.
Lemma nearest_even_exact a b n : 2 * a < 2 * b * n + b -> 2 * b * n < 2 * a + b -> nearest_even a b = n.
Proof.
  intros H1 H2. assert (HB : b <> 0) by (intros ->; lia).
  destruct (nearest_even_near a b HB) as [N1 N2]. set (m := nearest_even a b) in *. clearbody m.
  destruct (N.lt_trichotomy m n) as [L|[L|L]]; [exfalso|exact L|exfalso]; nia.
Qed.
Lemma tenth_exact n : n < 65536 -> n <> 0 -> nearest_even (10 * fst (f32_tenth n)) (2 ^ snd (f32_tenth n)) = n.
Proof.
  intros H NZ. unfold f32_tenth. cbv zeta. cbn [fst snd].
  assert (L : N.log2 n < 16) by (apply N.log2_lt_pow2; [lia|exact H]).
  set (k := if n * 2 ^ (26 - N.log2 n) <? 10 * 2 ^ 23 then _ else _).
  assert (K : 4 <= k) by (subst k; destruct (_ <? _); lia). clearbody k.
  assert (P : 16 <= 2 ^ k) by (change 16 with (2 ^ 4); apply N.pow_le_mono_r; [discriminate|exact K]).
  destruct (nearest_even_near (n * 2 ^ k) 10 ltac:(discriminate)) as [A B].
  apply nearest_even_exact; lia.
Qed.
Lemma tenths_ok n : n < 65536 -> n <> 0 -> show_f32_1 (f32_tenth n) = show_dec (n / 10) ++ "." ++ show_dec (n mod 10).
Proof. intros H NZ. unfold show_f32_1. rewrite (tenth_exact n H NZ). reflexivity. Qed.
