(* Lemmas about equality and hashing. *)
From Coq Require Import String.
From Coq Require Import ZArith Lia ZifyBool ZifyNat ZifyN.
From Verif Require Import Base G_Enums M_Raw M_Enclosure M_SystemSlots M_SystemEventLog M_Hash Spec S_Hash L_Base L_Slots.
Local Open Scope N_scope.
Ltac Zify.zify_post_hook ::= Z.div_mod_to_equations.

Lemma slice_eq_iff : forall a b, slice_eq a b = true <-> a = b.
Proof.
  induction a as [|x a IH]; intros [|y b]; cbn; split; intros H; try discriminate; try reflexivity.
  - apply andb_prop in H. destruct H as [H1 H2]. apply N.eqb_eq in H1. apply IH in H2. congruence.
  - injection H as -> ->. rewrite N.eqb_refl. cbn. apply IH. reflexivity.
Qed.
Lemma iter_eq_iff : forall a b, iter_eq a b = true <-> a = b.
Proof.
  induction a as [|x a IH]; intros [|y b]; cbn; split; intros H; try discriminate; try reflexivity.
  - apply andb_prop in H. destruct H as [H1 H2]. apply slice_eq_iff in H1. apply IH in H2. congruence.
  - injection H as -> ->. apply andb_true_intro. split; [apply slice_eq_iff|apply IH]; reflexivity.
Qed.

(* chunks *)
Lemma chunks_fuel_enough {A} n (Hn : 0 < n) : forall f g (l : list A), (length l <= f)%nat -> (length l <= g)%nat ->
  chunks_fuel f n l = chunks_fuel g n l.
Proof.
  induction f as [|f IH]; intros g l Hf Hg.
  - destruct l; [|cbn in Hf; lia]. destruct g; reflexivity.
  - destruct g as [|g]; [destruct l; [reflexivity|cbn in Hg; lia]|].
    cbn. destruct l as [|x l]; [reflexivity|]. f_equal. apply IH; unfold drop; rewrite skipn_length; cbn [length] in *; lia.
Qed.
Lemma chunks_nil {A} n : chunks n (@nil A) = [].
Proof. reflexivity. Qed.
Lemma chunks_step {A} n (l : list A) : 0 < n -> l <> [] -> chunks n l = take n l :: chunks n (drop n l).
Proof.
  intros Hn Hl. unfold chunks. destruct l as [|x l]; [congruence|]. cbn [length chunks_fuel]. f_equal.
  apply chunks_fuel_enough; [exact Hn| |lia]. unfold drop. rewrite skipn_length. cbn [length]. lia.
Qed.
Lemma concat_chunks {A} n : 0 < n -> forall k (l : list A), (length l <= k)%nat -> concat (chunks n l) = l.
Proof.
  intros Hn. induction k as [|k IH]; intros l Hk.
  - destruct l; [reflexivity|cbn in Hk; lia].
  - destruct l as [|x l]; [reflexivity|]. rewrite chunks_step by (auto; discriminate). cbn [concat].
    rewrite IH; [apply take_drop|]. unfold drop. rewrite skipn_length. cbn [length] in *. lia.
Qed.
Lemma chunks_same {A} n m (a b : list A) : 0 < n -> 0 < m ->
  chunks n a = chunks m b <-> a = b /\ (n = m \/ (len a <= n /\ len a <= m)).
Proof.
  intros Hn Hm. split.
  - intros H. assert (E : a = b).
    { rewrite <- (concat_chunks n Hn (length a) a) by lia. rewrite H. apply (concat_chunks m Hm (length b)). lia. }
    split; [exact E|]. subst b. destruct a as [|x a]; [right; rewrite len_nil; lia|].
    rewrite !chunks_step in H by (auto; discriminate). injection H as H1 H2.
    assert (L : len (take n (x :: a)) = len (take m (x :: a))) by congruence. rewrite !len_take in L. lia.
  - intros [-> [->|[H1 H2]]]; [reflexivity|]. destruct b as [|x b]; [reflexivity|].
    rewrite (chunks_step n), (chunks_step m) by (auto; discriminate).
    rewrite (take_all n), (take_all m), (drop_all n), (drop_all m) by assumption. reflexivity.
Qed.

(* hashing *)
Lemma hash_chunks : forall a b x y, flat_map slice_hash a ++ x = flat_map slice_hash b ++ y ->
  (forall n t, x <> WriteUsize n :: t) -> (forall n t, y <> WriteUsize n :: t) -> a = b /\ x = y.
Proof.
  induction a as [|c a IH]; intros [|d b] x y H Hx Hy; cbn in H.
  - auto.
  - destruct (Hx _ _ H).
  - destruct (Hy (len c) (WriteBytes c :: flat_map slice_hash a ++ x)). symmetry. exact H.
  - injection H as _ -> H. apply IH in H; [|assumption..]. destruct H as [-> ->]. auto.
Qed.

(* the three types *)
Lemma peers_eq_chunks a b : PeerDevices_eq a b = true <-> peer_chunks a = peer_chunks b.
Proof. unfold PeerDevices_eq. rewrite iter_eq_iff, chunks_same by lia. intuition. Qed.
Lemma descriptors_eq_chunks a b : EventLogTypeDescriptors_eq a b = true <->
  chunks (descriptors_size a) (descriptors_data a) = chunks (descriptors_size b) (descriptors_data b).
Proof. apply iter_eq_iff. Qed.
Lemma descriptors_eq_data a b : 0 < descriptors_size a -> 0 < descriptors_size b ->
  EventLogTypeDescriptors_eq a b = true <-> descriptors_data a = descriptors_data b /\
   (descriptors_size a = descriptors_size b \/
    (len (descriptors_data a) <= descriptors_size a /\ len (descriptors_data a) <= descriptors_size b)).
Proof. intros Ha Hb. rewrite descriptors_eq_chunks. apply chunks_same; assumption. Qed.
Lemma elements_eq_chunks a b : ContainedElements_eq a b = true <->
  chunks (ce_record_length a) (ce_chunks a) = chunks (ce_record_length b) (ce_chunks b) /\
  ce_count a = ce_count b /\ ce_record_length a = ce_record_length b.
Proof. unfold ContainedElements_eq. rewrite !Bool.andb_true_iff, iter_eq_iff, !N.eqb_eq. tauto. Qed.
Lemma elements_eq_data a b : (ce_record_length a = 0 -> ce_chunks a = []) -> (ce_record_length b = 0 -> ce_chunks b = []) ->
  ContainedElements_eq a b = true <->
  ce_chunks a = ce_chunks b /\ ce_count a = ce_count b /\ ce_record_length a = ce_record_length b.
Proof.
  intros Ha Hb. rewrite elements_eq_chunks. split; intros [H [H1 H2]]; (split; [|split]); try assumption.
  - rewrite H2 in H, Ha. destruct (N.eq_dec (ce_record_length b) 0) as [E|E].
    + rewrite (Ha E), (Hb E). reflexivity.
    + apply chunks_same in H; [tauto|lia..].
  - congruence.
Qed.

Lemma peers_equivalence : equivalence PeerDevices_eq.
Proof. split; [|split]; intros; rewrite ?peers_eq_chunks in *; congruence. Qed.
Lemma descriptors_equivalence : equivalence EventLogTypeDescriptors_eq.
Proof. split; [|split]; intros; rewrite ?descriptors_eq_chunks in *; congruence. Qed.
Lemma elements_equivalence : equivalence ContainedElements_eq.
Proof. split; [|split]; intros; rewrite ?elements_eq_chunks in *; intuition congruence. Qed.

Lemma no_usize_nil : forall n t, @nil call <> WriteUsize n :: t.
Proof. discriminate. Qed.
Lemma no_usize_u8 x l : forall n t, WriteU8 x :: l <> WriteUsize n :: t.
Proof. discriminate. Qed.
Lemma chunks_hash a b : flat_map slice_hash a = flat_map slice_hash b -> a = b.
Proof.
  intros H. apply (hash_chunks a b [] []); [rewrite !app_nil_r; exact H|apply no_usize_nil..].
Qed.
Lemma peers_hash : hash_agrees PeerDevices_eq PeerDevices_hash /\ hash_separates PeerDevices_eq PeerDevices_hash.
Proof.
  split; intros a b H.
  - apply peers_eq_chunks in H. unfold PeerDevices_hash. rewrite H. reflexivity.
  - apply chunks_hash in H. apply iter_eq_iff. exact H.
Qed.
Lemma descriptors_hash : hash_agrees EventLogTypeDescriptors_eq EventLogTypeDescriptors_hash /\ hash_separates EventLogTypeDescriptors_eq EventLogTypeDescriptors_hash.
Proof.
  split; intros a b H.
  - apply descriptors_eq_chunks in H. unfold EventLogTypeDescriptors_hash. rewrite H. reflexivity.
  - apply chunks_hash in H. apply iter_eq_iff. exact H.
Qed.
Lemma elements_hash : hash_agrees ContainedElements_eq ContainedElements_hash /\ hash_separates ContainedElements_eq ContainedElements_hash.
Proof.
  split; intros a b H.
  - apply elements_eq_chunks in H. unfold ContainedElements_hash. destruct H as [-> [-> ->]]. reflexivity.
  - apply hash_chunks in H; [|apply no_usize_u8..]. destruct H as [H1 H2]. injection H2 as H2 H3. apply elements_eq_chunks. auto.
Qed.

(* what equal values yield *)
Lemma drains_peers_bytes n : forall l, length l = (5 * n)%nat -> all_bytes l -> forall ds s', drains PeerDevices_next {| peer_chunks := l |} ds s' ->
  l = concat (map Device_to ds).
Proof.
  induction n as [|n IH]; intros l HL HB ds s' D.
  - destruct l; [|discriminate]. inversion D; subst; [reflexivity|]. discriminate.
  - replace (5 * S n)%nat with (5 + 5 * n)%nat in HL by lia. do 5 (destruct l as [|? l]; [discriminate|]). cbn in HL.
    inversion D as [? ? E|? d s1 ds' ? E D']; subst; unfold PeerDevices_next in E; cbn [peer_chunks] in E;
    change (take 5 (n0 :: n1 :: n2 :: n3 :: n4 :: l)) with (n0 :: n1 :: n2 :: n3 :: n4 :: []) in E;
    destruct (Device_from [n0; n1; n2; n3; n4]) as [d'| |] eqn:F; try discriminate. cbn [obind] in E. injection E as <- <-.
    change (drop 5 (n0 :: n1 :: n2 :: n3 :: n4 :: l)) with l in D'.
    assert (HB5 : all_bytes [n0; n1; n2; n3; n4] /\ all_bytes l) by (apply all_bytes_app; exact HB). destruct HB5 as [HB5 HBl].
    apply device_round in F; [|exact HB5|reflexivity]. cbn [map concat]. rewrite F. rewrite (IH l ltac:(lia) HBl ds' s' D') at 1. reflexivity.
Qed.
Lemma peers_eq_yield a b : all_bytes (peer_chunks a) -> all_bytes (peer_chunks b) ->
  len (peer_chunks a) mod 5 = 0 -> len (peer_chunks b) mod 5 = 0 ->
  PeerDevices_eq a b = true <-> yield_the_same PeerDevices_next a b.
Proof.
  destruct a as [a], b as [b]. cbn [peer_chunks]. intros Ba Bb Ha Hb. rewrite peers_eq_chunks. cbn [peer_chunks]. split.
  - intros <-. destruct (peers_drain (N.to_nat (len a / 5)) a) as [recs [ds [s' [_ [_ [D _]]]]]]; [unfold len in *; lia|].
    exists ds, s', s'. auto.
  - intros [l [a' [b' [Da Db]]]].
    rewrite (drains_peers_bytes (N.to_nat (len a / 5)) a ltac:(unfold len in *; lia) Ba l a' Da).
    rewrite (drains_peers_bytes (N.to_nat (len b / 5)) b ltac:(unfold len in *; lia) Bb l b' Db). reflexivity.
Qed.

Lemma descriptors_eq_next a b : 0 < descriptors_size a -> 0 < descriptors_size b -> EventLogTypeDescriptors_eq a b = true ->
  fst (EventLogTypeDescriptors_next a) = fst (EventLogTypeDescriptors_next b) /\
  EventLogTypeDescriptors_eq (snd (EventLogTypeDescriptors_next a)) (snd (EventLogTypeDescriptors_next b)) = true.
Proof.
  intros Ha Hb H. destruct a as [a n], b as [b m]. cbn [descriptors_size] in *.
  apply descriptors_eq_data in H; [|assumption..]. cbn [descriptors_data descriptors_size] in H. destruct H as [<- H].
  unfold EventLogTypeDescriptors_next. cbn [descriptors_data descriptors_size]. destruct a as [|x a].
  - split; [reflexivity|]. apply descriptors_eq_data; cbn [snd descriptors_data descriptors_size]; auto.
  - cbn [fst snd]. destruct H as [<-|[H1 H2]].
    + split; [reflexivity|]. apply (proj1 descriptors_equivalence).
    + rewrite (take_all n), (take_all m), (drop_all n), (drop_all m) by assumption. split; [reflexivity|].
      apply descriptors_eq_data; cbn [snd descriptors_data descriptors_size]; auto. split; [reflexivity|]. right. rewrite len_nil. lia.
Qed.

Lemma descriptors_eq_drains a l a' : drains (lift_next EventLogTypeDescriptors_next) a l a' -> forall b,
  0 < descriptors_size a -> 0 < descriptors_size b -> EventLogTypeDescriptors_eq a b = true ->
  exists b', drains (lift_next EventLogTypeDescriptors_next) b l b'.
Proof.
  assert (SZ : forall s, descriptors_size (snd (EventLogTypeDescriptors_next s)) = descriptors_size s).
  { intros s. unfold EventLogTypeDescriptors_next. destruct (descriptors_data s); reflexivity. }
  induction 1 as [a a' E|a i a1 l a' E D IH]; intros b Ha Hb H; destruct (descriptors_eq_next a b Ha Hb H) as [H1 H2];
    unfold lift_next in E; injection E as E; rewrite E in H1, H2; cbn [fst snd] in H1, H2;
    pose proof (SZ a) as Sa; pose proof (SZ b) as Sb; rewrite E in Sa; cbn [snd] in Sa;
    destruct (EventLogTypeDescriptors_next b) as [ib b1] eqn:EB; cbn [fst snd] in H1, H2, Sb; subst ib.
  - exists b1. apply drains_nil. unfold lift_next. rewrite EB. reflexivity.
  - destruct (IH b1) as [b' D']; [lia..|exact H2|]. exists b'. eapply drains_cons; [|exact D'].
    unfold lift_next. rewrite EB. reflexivity.
Qed.

Lemma elements_eq_next c a b : ContainedElements_eq a b = true -> 3 <= ce_record_length a ->
  len (ce_chunks a) mod ce_record_length a = 0 ->
  exists i a' b', ContainedElements_next c a = Val (i, a') /\ ContainedElements_next c b = Val (i, b') /\
    ContainedElements_eq a' b' = true /\ ce_record_length a' = ce_record_length a /\ len (ce_chunks a') mod ce_record_length a = 0.
Proof.
  intros H H3 HM. destruct a as [a aa ac ar], b as [b ba bc br]. cbn [ce_chunks ce_record_length] in *.
  pose proof H as H'. apply elements_eq_chunks in H. cbn [ce_chunks ce_record_length ce_count] in H. destruct H as [H [-> ->]].
  apply chunks_same in H; [|lia..]. destruct H as [<- _].
  unfold ContainedElements_next. cbn [ce_chunks ce_record_length ce_count ce_after]. destruct a as [|x a].
  { exists None. do 2 eexists. split; [reflexivity|]. split; [reflexivity|]. auto. }
  assert (HL : br <= len (x :: a)).
  { destruct (N.le_gt_cases br (len (x :: a))) as [|H]; [assumption|]. rewrite N.mod_small in HM by assumption.
    rewrite len_cons in HM. lia. }
  unfold ContainedElement_from. rewrite len_take.
  destruct (N.leb_spec 3 (N.min br (len (x :: a)))) as [L|L]; [|lia]. cbn [obind].
  do 3 eexists. split; [reflexivity|]. split; [reflexivity|]. split; [|split].
  - apply elements_eq_chunks. cbn [ce_chunks ce_record_length ce_count]. auto.
  - reflexivity.
  - cbn [ce_chunks]. rewrite len_drop. apply N.mod_divide in HM; [|lia]. destruct HM as [q HM]. rewrite HM in HL |- *.
    replace (q * br - br) with ((q - 1) * br) by (rewrite N.mul_sub_distr_r, N.mul_1_l; reflexivity). apply N.mod_mul. lia.
Qed.
Lemma elements_eq_drains c a l a' : drains (ContainedElements_next c) a l a' -> forall b,
  ContainedElements_eq a b = true -> 3 <= ce_record_length a -> len (ce_chunks a) mod ce_record_length a = 0 ->
  exists b', drains (ContainedElements_next c) b l b'.
Proof.
  induction 1 as [a a' E|a i a1 l a' E D IH]; intros b H H3 HM;
    destruct (elements_eq_next c a b H H3 HM) as [i' [a2 [b2 [Ea [Eb [H' [R M]]]]]]]; rewrite E in Ea.
  - injection Ea as <- <-. exists b2. apply drains_nil. exact Eb.
  - injection Ea as <- <-. destruct (IH b2) as [b' D']; [exact H'|rewrite R; exact H3|rewrite R; exact M|].
    exists b'. eapply drains_cons; [exact Eb|exact D'].
Qed.
