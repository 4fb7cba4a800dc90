(* The parts of a value can be read back from the bytes that a hasher receives. *)
From Coq Require Import String.
From Coq Require Import ZArith Lia ZifyBool ZifyNat ZifyN.
From Verif Require Import Base G_Enums M_Raw M_Enclosure M_SystemSlots M_SystemEventLog M_Iter M_Hash M_Eq M_Stream
  Spec S_Hash S_Show L_Base L_Hash L_Eq.
Local Open Scope N_scope.

(* ------------------------------------------------------------- numbers *)

Lemma lowest_length k : forall n, length (lowest_first k n) = k.
Proof. induction k as [|k IH]; intros n; cbn; [reflexivity|]. rewrite IH. reflexivity. Qed.
Lemma lowest_inj k : forall n m, n < 256 ^ N.of_nat k -> m < 256 ^ N.of_nat k -> lowest_first k n = lowest_first k m -> n = m.
Proof.
  induction k as [|k IH]; intros n m Hn Hm H.
  - cbn in Hn, Hm. lia.
  - cbn [lowest_first] in H. injection H as H1 H2. rewrite Nat2N.inj_succ, N.pow_succ_r' in Hn, Hm.
    apply IH in H2; [|apply N.div_lt_upper_bound; lia..].
    rewrite (N.div_mod n 256), (N.div_mod m 256) by lia. rewrite H1, H2. reflexivity.
Qed.
Lemma ne_length big k n : length (ne_bytes big k n) = k.
Proof. unfold ne_bytes. destruct big; rewrite ?rev_length; apply lowest_length. Qed.
Lemma ne_inj big k n m : n < 256 ^ N.of_nat k -> m < 256 ^ N.of_nat k -> ne_bytes big k n = ne_bytes big k m -> n = m.
Proof.
  intros Hn Hm H. apply (lowest_inj k); [assumption..|]. unfold ne_bytes in H. destruct big; [|exact H].
  rewrite <- (rev_involutive (lowest_first k n)), H. apply rev_involutive.
Qed.
Lemma app_split {A} : forall (a b l m : list A), length a = length b -> a ++ l = b ++ m -> a = b /\ l = m.
Proof.
  induction a as [|x a IH]; intros [|y b] l m HL H; cbn in HL; try discriminate HL; [auto|].
  cbn [app] in H. injection H as -> H. injection HL as HL. apply IH in H as [-> ->]; auto.
Qed.
Lemma ne_read big k n m l r : n < 256 ^ N.of_nat k -> m < 256 ^ N.of_nat k ->
  ne_bytes big k n ++ l = ne_bytes big k m ++ r -> n = m /\ l = r.
Proof.
  intros Hn Hm H. apply app_split in H as [H1 H2]; [|rewrite !ne_length; reflexivity]. split; [|exact H2].
  eapply ne_inj; eassumption.
Qed.
Lemma usize_room c n : n < 2 ^ 32 -> n < 256 ^ N.of_nat (usize_bytes c).
Proof.
  intros H. unfold usize_bytes. destruct (pointer_width c); cbn [N.of_nat Pos.of_succ_nat Pos.succ].
  - exact H.
  - eapply N.lt_trans; [exact H|reflexivity].
Qed.

(* a text: no byte of UTF-8 is FFh *)
Definition no_ff (t : list N) : Prop := ~ In 255 t.
Lemma str_read : forall t u l m, no_ff t -> no_ff u -> t ++ [255] ++ l = u ++ [255] ++ m -> t = u /\ l = m.
Proof.
  induction t as [|x t IH]; intros [|y u] l m HT HU H; cbn [app] in H.
  - injection H as ->. auto.
  - injection H as E _. destruct HU. left. symmetry. exact E.
  - injection H as E _. destruct HT. left. exact E.
  - injection H as -> H. apply IH in H as [-> ->]; [auto|..]; intros I; [apply HT|apply HU]; right; exact I.
Qed.
Lemma utf8_no_ff t : utf8 t -> no_ff t.
Proof.
  intros [cs [H ->]] I. apply in_flat_map in I as [x [Ix I]]. rewrite Forall_forall in H. apply H in Ix.
  unfold scalar in Ix. unfold utf8_encode in I.
  destruct (x <? 0x80) eqn:E1; [cbn [In] in I; lia|].
  destruct (x <? 0x800) eqn:E2; [cbn [In] in I; pose proof (N.mod_lt x 64); pose proof (N.div_lt_upper_bound x 64 32); lia|].
  pose proof (N.mod_lt x 64 ltac:(lia)). pose proof (N.mod_lt (x / 64) 64 ltac:(lia)). pose proof (N.mod_lt (x / 4096) 64 ltac:(lia)).
  destruct (x <? 0x10000) eqn:E3; cbn [In] in I.
  - pose proof (N.div_lt_upper_bound x 4096 16). lia.
  - pose proof (N.div_lt_upper_bound x 262144 5). lia.
Qed.

(* ------------------------------------------------------------ coherence *)

(* Two lists of parts are coherent: up to the first difference the parts are of the same
   kinds, so that what comes next is known from what came before. *)
Definition alike_kind (x y : part) : Prop :=
  match x, y with
  | Num w _, Num v _ => w = v
  | Tag i, Tag j => i < 1024 /\ j < 1024
  | Str _, Str _ | Slice _, Slice _ | Peers _, Peers _ | Descriptors _, Descriptors _ | Elements _, Elements _ => True
  | _, _ => False
  end.
Fixpoint coherent (a b : list part) : Prop :=
  match a, b with
  | [], [] => True
  | x :: a, y :: b => alike_kind x y /\ (part_eq x y = true -> coherent a b)
  | _, _ => False
  end.
Definition coh {A} (e : A -> list part) : Prop := forall a b l m, coherent l m -> coherent (e a ++ l) (e b ++ m).

Lemma num_coh w : coh (num w). Proof. intros a b l m H. split; [reflexivity|]. intros _. exact H. Qed.
Lemma flag_coh : coh flag. Proof. intros a b l m H. split; [reflexivity|]. intros _. exact H. Qed.
Lemma str_coh : coh str. Proof. intros a b l m H. split; [exact I|]. intros _. exact H. Qed.
Lemma slice_coh : coh slice. Proof. intros a b l m H. split; [exact I|]. intros _. exact H. Qed.
Lemma peers_coh : coh peers. Proof. intros a b l m H. split; [exact I|]. intros _. exact H. Qed.
Lemma descriptors_coh : coh descriptors. Proof. intros a b l m H. split; [exact I|]. intros _. exact H. Qed.
Lemma elements_coh : coh elements. Proof. intros a b l m H. split; [exact I|]. intros _. exact H. Qed.
Lemma tag_coh i j l m : i < 1024 -> j < 1024 -> (i = j -> coherent l m) -> coherent (Tag i :: l) (Tag j :: m).
Proof. intros Hi Hj H. split; [split; assumption|]. cbn [part_eq]. intros E. apply H, N.eqb_eq, E. Qed.
Lemma option_coh {A} {e : A -> list part} : coh e -> coh (option_parts e).
Proof.
  intros HE [a|] [b|] l m H; cbn [option_parts app]; apply tag_coh; try reflexivity; intros E; try discriminate E; [|exact H].
  apply HE, H.
Qed.
Lemma variant_coh {A} w (tag : A -> N) (value : A -> option N) (has : N -> bool) :
  (forall a, has (tag a) = match value a with Some _ => true | None => false end) -> (forall a, (tag a <? 1024) = true) ->
  coh (fun a => variant_parts w (tag a) (value a)).
Proof.
  intros HH HT a b l m H. unfold variant_parts. cbn [app]. apply tag_coh; [apply N.ltb_lt, HT..|].
  intros E. pose proof (HH a) as Ha. pose proof (HH b) as Hb. rewrite E in Ha. rewrite Ha in Hb.
  destruct (value a), (value b); try discriminate Hb; [apply (num_coh w), H|exact H].
Qed.
Lemma on_coh {A B} (f : A -> B) {e : B -> list part} : coh e -> coh (fun a => e (f a)).
Proof. intros HE a b. apply HE. Qed.
Lemma then_coh {A} {e1 e2 : A -> list part} : coh e1 -> coh e2 -> coh (fun a => e1 a ++ e2 a).
Proof. intros H1 H2 a b l m H. rewrite <- !app_assoc. apply H1, H2, H. Qed.

(* ------------------------------------------- types without slices and lists *)

Definition small_part (p : part) : bool :=
  match p with Num Usize _ | Slice _ | Peers _ | Descriptors _ | Elements _ => false | _ => true end.
Definition small {A} (e : A -> list part) : Prop := forall a, Forall (fun p => small_part p = true) (e a).
Lemma num_small w : small_part (Num w 0) = true -> small (num w).
Proof. intros H a. repeat constructor. destruct w; first [reflexivity|discriminate H]. Qed.
Lemma flag_small : small flag. Proof. intros a. repeat constructor. Qed.
Lemma str_small : small str. Proof. intros a. repeat constructor. Qed.
Lemma option_small {A} {e : A -> list part} : small e -> small (option_parts e).
Proof. intros H [a|]; cbn [option_parts]; constructor; try reflexivity; [apply H|constructor]. Qed.
Lemma variant_small {A} w (tag : A -> N) (value : A -> option N) : small_part (Num w 0) = true -> small (fun a => variant_parts w (tag a) (value a)).
Proof. intros H a. unfold variant_parts. constructor; [reflexivity|]. destruct (value a); [apply (num_small w H)|constructor]. Qed.
Lemma on_small {A B} (f : A -> B) {e : B -> list part} : small e -> small (fun a => e (f a)).
Proof. intros H a. apply H. Qed.
Lemma then_small {A} {e1 e2 : A -> list part} : small e1 -> small e2 -> small (fun a => e1 a ++ e2 a).
Proof. intros H1 H2 a. apply Forall_app. split; [apply H1|apply H2]. Qed.
