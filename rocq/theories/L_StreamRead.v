(* Values that differ feed different bytes to a hasher. *)
From Coq Require Import String.
From Coq Require Import ZArith Lia ZifyBool ZifyNat ZifyN.
From Verif Require Import Base G_Enums M_Raw M_Entry M_Enclosure M_SystemSlots M_SystemEventLog M_Iter M_Hash M_Eq M_Stream G_Eq
  Spec S_Hash S_Show S_Stream L_Base L_Hash L_Eq L_Stream L_GStream.
Local Open Scope N_scope.

Section Read.
Context (c : cfg) (big : bool).

Definition part_stream (p : part) : list N := stream c big (part_hash p).
Definition parts_stream (a : list part) : list N := flat_map part_stream a.
Lemma stream_app a b : stream c big (a ++ b) = stream c big a ++ stream c big b.
Proof. apply flat_map_app. Qed.
Lemma stream_parts a : stream c big (derived_hash a) = parts_stream a.
Proof. induction a as [|x a IH]; [reflexivity|]. cbn [derived_hash flat_map]. rewrite stream_app. cbn [parts_stream flat_map]. f_equal. exact IH. Qed.
Lemma parts_app a b : parts_stream (a ++ b) = parts_stream a ++ parts_stream b.
Proof. apply flat_map_app. Qed.

(* a word of the machine *)
Definition in_word (n : N) : list N := ne_bytes big (usize_bytes c) n.
Lemma word_read n m l r : n < 2 ^ 32 -> m < 2 ^ 32 -> in_word n ++ l = in_word m ++ r -> n = m /\ l = r.
Proof. intros Hn Hm. apply ne_read; apply usize_room; assumption. Qed.
Lemma word_length n : length (in_word n) = usize_bytes c.
Proof. apply ne_length. Qed.

(* chunks, each after its length *)
Definition chunk_stream (cs : list (list N)) : list N := stream c big (flat_map slice_hash cs).
Lemma chunk_step x cs : chunk_stream (x :: cs) = in_word (len x) ++ x ++ chunk_stream cs.
Proof. unfold chunk_stream. cbn [flat_map]. rewrite stream_app. cbn [slice_hash stream flat_map call_bytes]. rewrite app_nil_r, <- app_assoc. reflexivity. Qed.

Lemma slice_read x y l m : len x < 2 ^ 32 -> len y < 2 ^ 32 -> in_word (len x) ++ x ++ l = in_word (len y) ++ y ++ m -> x = y /\ l = m.
Proof.
  intros Hx Hy H. apply word_read in H as [E H]; [|assumption..]. apply app_split in H; [exact H|]. unfold len in E. lia.
Qed.

(* chunks of five bytes before a word that is not five *)
Lemma fives_read : forall cs ds i j l m, Forall (fun x => len x = 5) cs -> Forall (fun x => len x = 5) ds -> i < 2 -> j < 2 ->
  chunk_stream cs ++ in_word i ++ l = chunk_stream ds ++ in_word j ++ m -> cs = ds /\ in_word i ++ l = in_word j ++ m.
Proof.
  induction cs as [|x cs IH]; intros [|y ds] i j l m HC HD Hi Hj H; rewrite ?chunk_step, <- ?app_assoc in H.
  - auto.
  - inversion HD as [|? ? E _]; subst. apply word_read in H as [H _]; [|rewrite ?E; lia..]. rewrite E in H. lia.
  - inversion HC as [|? ? E _]; subst. apply word_read in H as [H _]; [|rewrite ?E; lia..]. rewrite E in H. lia.
  - inversion HC as [|? ? E HC']; inversion HD as [|? ? F HD']; subst.
    apply slice_read in H as [-> H]; [|rewrite ?E, ?F; reflexivity..]. apply IH in H as [-> H]; [|assumption..]. auto.
Qed.
Lemma chunks_five : forall k (l : list N), (length l <= k)%nat -> len l mod 5 = 0 -> Forall (fun x => len x = 5) (chunks 5 l).
Proof.
  induction k as [|k IH]; intros [|a l] HL HM; try (rewrite chunks_nil; constructor); [cbn in HL; lia|].
  assert (5 <= len (a :: l)).
  { assert (len (a :: l) <> 0) by (unfold len; cbn [length]; lia). pose proof (N.div_mod (len (a :: l)) 5 ltac:(lia)). lia. }
  rewrite chunks_step by (try discriminate; reflexivity). constructor; [rewrite len_take; lia|].
  apply IH; [unfold drop; rewrite skipn_length; cbn [length] in *; lia|]. rewrite len_drop.
  pose proof (N.div_mod (len (a :: l)) 5 ltac:(lia)). set (n := len (a :: l)) in *.
  assert (n - 5 = 5 * (n / 5 - 1)) as -> by lia. rewrite N.mul_comm. apply N.mod_mul. lia.
Qed.

(* numbers *)
Lemma num_read w n m l r : n < 2 ^ width_bits w -> m < 2 ^ width_bits w -> sized (Num w n) -> sized (Num w m) ->
  part_stream (Num w n) ++ l = part_stream (Num w m) ++ r -> n = m /\ l = r.
Proof.
  intros Hn Hm Sn Sm H.
  destruct w; cbn [part_stream part_hash stream flat_map call_bytes width_bits] in *; unfold part_stream in H; cbn [part_hash stream flat_map call_bytes] in H;
    rewrite !app_nil_r in H; try (apply ne_read in H; [exact H|assumption..]).
  apply word_read in H; assumption.
Qed.

(* the parts that can be read back whatever follows *)
Definition ends (p : part) : bool := match p with Descriptors _ | Elements _ => false | _ => true end.
(* a list of peer devices is followed by an option *)
Fixpoint marked (a : list part) : Prop :=
  match a with
  | [] => True
  | Peers _ :: a => (match a with Tag k :: _ => k < 2 | _ => False end) /\ marked a
  | _ :: a => marked a
  end.
Definition good (p : part) : Prop := fits_type p /\ sized p.

Lemma part_eq_same p q : good p -> good q -> alike_kind p q -> p = q -> part_eq p q = true.
Proof.
  intros _ _ _ <-. destruct p; cbn [part_eq]; try apply N.eqb_refl; try (apply slice_eq_iff; reflexivity).
  - apply peers_eq_chunks. reflexivity.
  - apply descriptors_eq_chunks. reflexivity.
  - apply elements_eq_chunks. auto.
Qed.

(* one part, from the front *)
Lemma part_read p q a b l m : ends p = true -> ends q = true -> good p -> good q -> alike_kind p q -> marked (p :: a) -> marked (q :: b) ->
  parts_stream (p :: a) ++ l = parts_stream (q :: b) ++ m ->
  part_eq p q = true /\ (coherent a b -> parts_stream a ++ l = parts_stream b ++ m).
Proof.
  intros Ep Eq_ Gp Gq K Mp Mq H. pose proof (part_eq_same p q Gp Gq K) as S.
  destruct Gp as [Fp Sp], Gq as [Fq Sq].
  change (parts_stream (p :: a)) with (part_stream p ++ parts_stream a) in H. change (parts_stream (q :: b)) with (part_stream q ++ parts_stream b) in H.
  rewrite <- !app_assoc in H.
  destruct p, q; cbn [alike_kind] in K; try contradiction; try discriminate Ep; cbn [fits_type] in Fp, Fq.
  - subst w0. apply num_read in H as [-> H]; [|assumption..]. auto.
  - unfold part_stream in H. cbn [part_hash stream flat_map call_bytes] in H. rewrite app_nil_r in H.
    assert (E : forall x, ne_bytes big 1 x = [x mod 256]) by (intros x; unfold ne_bytes; destruct big; reflexivity).
    rewrite E in H. change (255 mod 256) with 255 in H. rewrite <- !app_assoc in H.
    apply str_read in H as [-> H]; [auto|apply utf8_no_ff; assumption..].
  - unfold part_stream in H. cbn [part_hash slice_hash stream flat_map call_bytes] in H. rewrite !app_nil_r, <- !app_assoc in H.
    apply slice_read in H as [-> H]; [auto|assumption..].
  - unfold part_stream in H. cbn [part_hash stream flat_map call_bytes] in H. rewrite !app_nil_r in H.
    apply word_read in H as [-> H]; [auto|destruct K; lia..].
  - cbn [marked] in Mp, Mq. destruct a as [|[] a]; try (destruct Mp; contradiction). destruct b as [|[] b]; try (destruct Mq; contradiction).
    change (part_stream (Peers p)) with (chunk_stream (chunks 5 (peer_chunks p))) in H.
    change (part_stream (Peers p0)) with (chunk_stream (chunks 5 (peer_chunks p0))) in H.
    assert (T : forall n z r, parts_stream (Tag n :: z) ++ r = in_word n ++ parts_stream z ++ r).
    { intros n z r. unfold parts_stream at 1. cbn [flat_map]. unfold part_stream at 1. cbn [part_hash stream flat_map call_bytes].
      rewrite app_nil_r, <- app_assoc. reflexivity. }
    rewrite !T in *. apply fives_read in H as [E H]; [|eapply chunks_five; [reflexivity|assumption]..|apply Mp|apply Mq].
    split; [|intros _; exact H]. cbn [part_eq]. unfold PeerDevices_eq. apply iter_eq_iff. exact E.
Qed.

(* whole lists of parts: a prefix tells which part comes next *)
Lemma read_parts : forall a b l m, coherent a b -> Forall good a -> Forall good b -> forallb ends a = true -> forallb ends b = true ->
  marked a -> marked b -> parts_stream a ++ l = parts_stream b ++ m -> derived_eq a b = true /\ l = m.
Proof.
  induction a as [|p a IH]; intros [|q b] l m C Ga Gb Ea Eb Ma Mb H; cbn [coherent] in C; try contradiction; [auto|].
  destruct C as [K C]. inversion Ga; inversion Gb; subst. cbn [forallb] in Ea, Eb. apply Bool.andb_true_iff in Ea as [Ep Ea], Eb as [Eq_ Eb].
  apply part_read in H as [S H]; [|assumption..]. specialize (C S). specialize (H C).
  apply IH in H as [D ->]; try assumption.
  - split; [cbn [derived_eq]; rewrite S, D; reflexivity|reflexivity].
  - destruct p; cbn [marked] in Ma; try exact Ma; apply Ma.
  - destruct q; cbn [marked] in Mb; try exact Mb; apply Mb.
Qed.

(* ------------------------------------------ lists without a mark at their end *)

Lemma word_small n : n < 256 -> in_word n = match pointer_width c, big with
  | W32, false => [n; 0; 0; 0] | W32, true => [0; 0; 0; n]
  | W64, false => [n; 0; 0; 0; 0; 0; 0; 0] | W64, true => [0; 0; 0; 0; 0; 0; 0; n] end.
Proof.
  intros H. unfold in_word, usize_bytes, ne_bytes.
  destruct (pointer_width c), big; cbn [lowest_first rev app];
    rewrite (N.div_small n 256), (N.mod_small n 256) by exact H; reflexivity.
Qed.
Lemma open_read : forall cs ds, Forall (fun x => len x < 2 ^ 32) cs -> Forall (fun x => len x < 2 ^ 32) ds ->
  chunk_stream cs = chunk_stream ds -> cs = ds.
Proof.
  assert (Z : usize_bytes c <> O) by (unfold usize_bytes; destruct (pointer_width c); discriminate).
  assert (W : forall x cs, chunk_stream (x :: cs) <> []).
  { intros x cs E. apply (f_equal (@length N)) in E. rewrite chunk_step, app_length, word_length in E. cbn [length] in E. lia. }
  induction cs as [|x cs IH]; intros [|y ds] HC HD H.
  - reflexivity.
  - symmetry in H. destruct (W _ _ H).
  - destruct (W _ _ H).
  - inversion HC; inversion HD; subst. rewrite !chunk_step in H. apply slice_read in H as [-> H]; [|assumption..].
    rewrite (IH ds); [reflexivity|assumption..].
Qed.

(* what follows the records of an enclosure: their number and size, and the last field *)
Definition closes_with (n r k : N) (t : list N) : list N := [n; r] ++ in_word k ++ t.
Lemma records_end n r k t y m : 0 < len y < 256 -> k < 2 -> (k = 0 -> t = []) -> (2 + usize_bytes c <= length m)%nat ->
  closes_with n r k t <> in_word (len y) ++ y ++ m.
Proof.
  intros Hy Hk Ht Hm H. pose proof (f_equal (@length N) H) as HL.
  unfold closes_with in *. rewrite (app_length [n; r]), !app_length, !word_length in HL.
  rewrite !word_small in H by lia. cbn [length] in HL.
  assert (k = 0 -> False) as HK by (intros E; rewrite (Ht E) in HL; cbn [length] in HL; unfold len in Hy; lia).
  destruct (pointer_width c), big; cbn [app] in H; injection H; intros; subst; try lia.
Qed.
Lemma records_read : forall cs ds n r k t n' r' k' t', Forall (fun x => 0 < len x < 256) cs -> Forall (fun x => 0 < len x < 256) ds ->
  k < 2 -> k' < 2 -> (k = 0 -> t = []) -> (k' = 0 -> t' = []) ->
  chunk_stream cs ++ closes_with n r k t = chunk_stream ds ++ closes_with n' r' k' t' -> cs = ds /\ closes_with n r k t = closes_with n' r' k' t'.
Proof.
  assert (L : forall cs n r k t, (2 + usize_bytes c <= length (chunk_stream cs ++ closes_with n r k t))%nat).
  { intros. unfold closes_with. rewrite app_length, (app_length [_; _]), app_length, word_length. cbn [length]. lia. }
  induction cs as [|x cs IH]; intros [|y ds] n r k t n' r' k' t' HC HD Hk Hk' Ht Ht' H.
  - auto.
  - rewrite chunk_step, <- !app_assoc in H. change (chunk_stream [] ++ closes_with n r k t) with (closes_with n r k t) in H.
    inversion HD; subst. destruct (records_end n r k t y (chunk_stream ds ++ closes_with n' r' k' t')); auto.
  - rewrite chunk_step, <- !app_assoc in H. change (chunk_stream [] ++ closes_with n' r' k' t') with (closes_with n' r' k' t') in H. symmetry in H.
    inversion HC; subst. destruct (records_end n' r' k' t' x (chunk_stream cs ++ closes_with n r k t)); auto.
  - inversion HC; inversion HD; subst. rewrite !chunk_step, <- !app_assoc in H. apply slice_read in H as [-> H]; [|eapply N.lt_trans; [apply H2 || apply H6|reflexivity]..].
    apply IH in H as [-> H]; auto.
Qed.

(* such lists come last, up to one more text *)
Fixpoint closing (a : list part) : Prop :=
  match a with
  | [] => True
  | Descriptors _ :: a => a = []
  | Elements _ :: a => a = [Tag 0] \/ exists t, a = [Tag 1; Str t]
  | _ :: a => closing a
  end.

Lemma chunks_sizes n : 0 < n -> forall k (l : list N), (length l <= k)%nat -> Forall (fun x => 0 < len x /\ len x <= n /\ len x <= len l) (chunks n l).
Proof.
  intros Hn. induction k as [|k IH]; intros [|a l] HL; try (rewrite chunks_nil; constructor); [cbn in HL; lia|].
  rewrite chunks_step by (try discriminate; exact Hn).
  assert (P : 0 < len (a :: l)) by (unfold len; cbn [length]; lia).
  constructor; [rewrite len_take; lia|].
  assert (B : (length (drop n (a :: l)) <= k)%nat) by (unfold drop; rewrite skipn_length; cbn [length] in *; lia).
  eapply Forall_impl; [|exact (IH _ B)]. cbn beta. intros x (H1 & H2 & H3). rewrite len_drop in H3. lia.
Qed.

Lemma elements_stream e a : parts_stream (Elements e :: a) =
  chunk_stream (chunks (ce_record_length e) (ce_chunks e)) ++ [ce_count e mod 256; ce_record_length e mod 256] ++ parts_stream a.
Proof.
  unfold parts_stream at 1. cbn [flat_map]. change (flat_map part_stream a) with (parts_stream a). unfold part_stream. cbn [part_hash].
  unfold ContainedElements_hash. rewrite stream_app, <- app_assoc. f_equal.
  assert (E : forall x, ne_bytes big 1 x = [x mod 256]) by (intros x; unfold ne_bytes; destruct big; reflexivity).
  cbn [stream flat_map call_bytes]. rewrite !E. reflexivity.
Qed.
Lemma tag_stream k a : parts_stream (Tag k :: a) = in_word k ++ parts_stream a.
Proof. unfold parts_stream. cbn [flat_map]. unfold part_stream at 1. cbn [part_hash stream flat_map call_bytes]. rewrite app_nil_r. reflexivity. Qed.

Lemma closing_form a : a = [Tag 0] \/ (exists t, a = [Tag 1; Str t]) -> exists k t, k < 2 /\ (k = 0 -> t = []) /\ parts_stream a = in_word k ++ t.
Proof.
  intros [->|[t ->]].
  - exists 0, []. split; [reflexivity|]. split; [reflexivity|]. rewrite tag_stream. reflexivity.
  - exists 1, (parts_stream [Str t]). split; [reflexivity|]. split; [discriminate|]. apply tag_stream.
Qed.
Lemma element_chunks e : good (Elements e) -> Forall (fun x => 0 < len x < 256) (chunks (ce_record_length e) (ce_chunks e)).
Proof.
  intros [(_ & _ & HR) HS]. cbn [sized] in HS. destruct (N.eq_dec (ce_record_length e) 0) as [E|E].
  - rewrite (HS E), chunks_nil. constructor.
  - assert (P : 0 < ce_record_length e) by lia. eapply Forall_impl; [|exact (chunks_sizes _ P _ _ (le_n _))]. cbn beta. intros x. lia.
Qed.

Lemma read_all : forall a b, coherent a b -> Forall good a -> Forall good b -> marked a -> marked b -> closing a -> closing b ->
  parts_stream a = parts_stream b -> derived_eq a b = true.
Proof.
  induction a as [|p a IH]; intros [|q b] C Ga Gb Ma Mb La Lb H; cbn [coherent] in C; try contradiction; [reflexivity|].
  destruct C as [K C]. inversion Ga as [|? ? Gp Ga']; inversion Gb as [|? ? Gq Gb']; subst.
  assert (T : part_eq p q = true -> parts_stream a = parts_stream b -> closing a -> closing b -> derived_eq (p :: a) (q :: b) = true).
  { intros S E La' Lb'. cbn [derived_eq]. rewrite S. cbn [andb]. apply IH; auto.
    - destruct p; cbn [marked] in Ma; try exact Ma; apply Ma.
    - destruct q; cbn [marked] in Mb; try exact Mb; apply Mb. }
  destruct (ends p) eqn:Ep.
  - assert (Eq_ : ends q = true) by (destruct p, q; try contradiction; try discriminate Ep; reflexivity).
    destruct (part_read p q a b [] []) as [S E]; try assumption; [rewrite !app_nil_r; exact H|]. rewrite !app_nil_r in E. apply T; [exact S|apply E, C, S|..].
    + destruct p; try discriminate Ep; exact La.
    + destruct q; try discriminate Eq_; exact Lb.
  - destruct p; try discriminate Ep; destruct q; cbn [alike_kind] in K; try contradiction.
    + cbn [closing] in La, Lb. subst a b. cbn [derived_eq part_eq]. rewrite Bool.andb_true_r. apply descriptors_eq_chunks.
      destruct Gp as [_ [Pp Sp]], Gq as [_ [Pq Sq]].
      apply open_read.
      * eapply Forall_impl; [|exact (chunks_sizes _ Pp _ _ (le_n _))]. cbn beta. intros x. lia.
      * eapply Forall_impl; [|exact (chunks_sizes _ Pq _ _ (le_n _))]. cbn beta. intros x. lia.
      * unfold parts_stream in H. cbn [flat_map] in H. rewrite !app_nil_r in H. exact H.
    + rewrite !elements_stream in H. cbn [closing] in La, Lb.
      destruct (closing_form a La) as (k & t & Hk & Ht & Ea), (closing_form b Lb) as (k' & t' & Hk' & Ht' & Eb). rewrite Ea, Eb in H.
      apply records_read in H as [E H]; try assumption; try (apply element_chunks; assumption).
      unfold closes_with in H. cbn [app] in H. injection H as H1 H2 H3. rewrite <- Ea, <- Eb in H3.
      destruct Gp as [(_ & Pn & Pr) _], Gq as [(_ & Qn & Qr) _]. rewrite !N.mod_small in H1, H2 by assumption.
      apply T; [apply elements_eq_chunks; auto|exact H3|..].
      * destruct La as [->|[u ->]]; exact I.
      * destruct Lb as [->|[u ->]]; exact I.
Qed.
End Read.
