(* Lemmas for C84. *)
From Coq Require Import String.
From Coq Require Import ZArith Lia ZifyBool ZifyNat ZifyN.
From Verif Require Import Base G_Enums M_Raw M_Entry M_Bios M_System M_BaseBoard M_Enclosure M_Processor M_Cache
  M_PortConnector M_SystemSlots M_Strings M_GroupAssociations M_SystemEventLog M_PhysicalMemoryArray M_MemoryDevice
  M_Memory M_PortableBattery M_Iter M_Endian M_EndianDecoders Spec S_Endian S_EndianDecoders L_Base L_Decode L_Cache L_Endian.
Local Open Scope N_scope.

(* ------------------------------------------------------------ respelling *)

Definition total (ws : list N) : N := fold_right N.add 0 ws.

Lemma respell_len ws : forall m, len (respell ws m) = len m.
Proof.
  induction ws as [|w ws IH]; intros m; cbn [respell]; [reflexivity|].
  destruct (N.leb_spec w (len m)); [|reflexivity]. rewrite len_app, len_rev, IH, len_take, len_drop. lia.
Qed.
Lemma respell_twice ws : forall m, respell ws (respell ws m) = m.
Proof.
  induction ws as [|w ws IH]; intros m; cbn [respell]; [reflexivity|].
  destruct (N.leb_spec w (len m)) as [H|H].
  - assert (L : len (rev (take w m)) = w) by (rewrite len_rev, len_take; lia).
    replace (w <=? len (rev (take w m) ++ respell ws (drop w m))) with true by (rewrite len_app; lia).
    rewrite (take_app_exact w), (drop_app_exact w) by auto. rewrite rev_involutive, IH. apply take_drop.
  - replace (w <=? len m) with false by lia. reflexivity.
Qed.
(* a prefix made of whole fields *)
Lemma respell_prefix ws1 : forall ws2 m, total ws1 <= len m ->
  take (total ws1) (respell (ws1 ++ ws2) m) = respell ws1 (take (total ws1) m).
Proof.
  induction ws1 as [|w ws IH]; intros ws2 m H; cbn [total fold_right app respell] in *.
  - rewrite !take_0. reflexivity.
  - fold (total ws) in *. replace (w <=? len m) with true by lia.
    replace (w <=? len (take (w + total ws) m)) with true by (rewrite len_take; lia).
    assert (L : len (rev (take w m)) = w) by (rewrite len_rev, len_take; lia).
    rewrite take_app_ge by lia. rewrite L. replace (w + total ws - w) with (total ws) by lia.
    rewrite IH by (rewrite len_drop; lia). rewrite take_take, drop_take.
    replace (N.min w (w + total ws)) with w by lia. replace (w + total ws - w) with (total ws) by lia. reflexivity.
Qed.

Lemma respelled_twice r : respelled (respelled r) = r.
Proof.
  unfold respelled at 1. unfold respelled. cbn [data after info version length_ handle strings].
  rewrite take_drop. rewrite respell_twice. rewrite len_take, respell_len.
  replace (N.min (len (data r)) (len (data r ++ after r))) with (len (data r)) by (rewrite len_app; lia).
  rewrite take_app_exact, drop_app_exact by reflexivity. destruct r; reflexivity.
Qed.
Lemma respelled_none r : widths (info r) = [] -> respelled r = r.
Proof.
  intros E. unfold respelled. rewrite E. cbn [respell]. rewrite take_app_exact, drop_app_exact by reflexivity.
  destruct r; reflexivity.
Qed.

(* what a packed copy of the respelled structure holds *)
Lemma packed_respelled c n r ws1 ws2 : widths (info r) = ws1 ++ ws2 -> total ws1 = n ->
  read_packed c n (respelled r) = omap (respell ws1) (read_packed c n r).
Proof.
  intros E T. unfold read_packed, respelled. cbn [data after]. rewrite E.
  rewrite take_drop, len_take, !respell_len.
  replace (N.min (len (data r)) (len (data r ++ after r))) with (len (data r)) by (rewrite len_app; lia).
  destruct (N.leb_spec n (len (data r))) as [H|H].
  - cbn [omap obind]. f_equal. rewrite take_take. replace (N.min n (len (data r))) with n by lia.
    rewrite <- T, respell_prefix by (rewrite len_app; lia). rewrite (take_app_le _ (data r)) by lia. reflexivity.
  - destruct (flat_memory c); cbn [andb]; [|reflexivity].
    destruct (N.leb_spec n (len (data r ++ after r))) as [H2|H2]; [|reflexivity].
    cbn [omap obind]. f_equal. rewrite <- T, respell_prefix by lia. reflexivity.
Qed.
Lemma packed_len c n r p : read_packed c n r = Val p -> len p = n.
Proof.
  unfold read_packed. destruct (N.leb_spec n (len (data r))) as [H|H].
  - intros E. injection E as <-. rewrite len_take. lia.
  - destruct (flat_memory c); cbn [andb]; [|discriminate].
    destruct (N.leb_spec n (len (data r ++ after r))); [|discriminate]. intros E. injection E as <-. rewrite len_take. lia.
Qed.

(* where the fields are *)
Fixpoint offsets (o : N) (ws : list N) : list (N * N) :=
  match ws with [] => [] | w :: r => (o, w) :: offsets (o + w) r end.
Lemma offsets_ge ws : forall b o w, In (o, w) (offsets b ws) -> b <= o.
Proof.
  induction ws as [|v ws IH]; intros b o w H; cbn [offsets In] in H; [contradiction|].
  destruct H as [H|H]; [injection H as <- <-; lia|]. apply IH in H. lia.
Qed.
Lemma offsets_shift ws : forall b o w, In (o, w) (offsets b ws) -> In (o - b, w) (offsets 0 ws).
Proof.
  assert (G : forall ws b d o w, In (o, w) (offsets (b + d) ws) -> d <= o -> In (o - d, w) (offsets b ws)).
  { clear. induction ws as [|v ws IH]; intros b d o w H L; cbn [offsets In] in *; [contradiction|].
    destruct H as [H|H].
    - injection H as <- <-. left. f_equal. lia.
    - right. apply IH; [|exact L]. replace (b + v + d) with (b + d + v) by lia. exact H. }
  intros b o w H. apply G; [exact H|]. exact (offsets_ge _ _ _ _ H).
Qed.
Lemma field_respelled ws : forall o w p, In (o, w) (offsets 0 ws) -> total ws <= len p ->
  field_on true o w p = at_ o w (respell ws p).
Proof.
  induction ws as [|v ws IH]; intros o w p H L; cbn [offsets In total fold_right respell] in *; [contradiction|].
  fold (total ws) in L. replace (v <=? len p) with true by lia.
  assert (LR : len (rev (take v p)) = v) by (rewrite len_rev, len_take; lia).
  destruct H as [H|H].
  - injection H as <- <-. cbn [field_on]. unfold at_. rewrite be_rev, !drop_0. rewrite (take_app_exact v) by auto. reflexivity.
  - pose proof (offsets_ge _ _ _ _ H) as G. apply offsets_shift in H. replace (0 + v) with v in * by lia.
    specialize (IH (o - v) w (drop v p) H). rewrite len_drop in IH. specialize (IH ltac:(lia)).
    unfold field_on, at_ in *. rewrite drop_drop in IH. replace (o - v + v) with o in IH by lia. rewrite IH.
    rewrite drop_app_ge by lia. rewrite LR. reflexivity.
Qed.

(* ------------------------------------------------------------ the decoders *)

Ltac fields p ws :=
  repeat match goal with
  | |- context [field_on true ?o ?w p] =>
      rewrite (field_respelled ws o w p) by first [vm_compute; tauto | lia]
  end.
Ltac packed_branch ws1 ws2 :=
  match goal with
  | E : info ?r = _ |- context [read_packed ?c ?n (respelled ?r)] =>
      rewrite (packed_respelled c n r ws1 ws2) by first [rewrite E; reflexivity | reflexivity];
      let p := fresh "p" in let P := fresh "P" in
      destruct (read_packed c n r) as [p| |] eqn:P; cbn [omap obind]; try reflexivity;
      apply packed_len in P;
      assert (total ws1 = n) by reflexivity
  end.

Lemma finds_respelled r k : find_string (respelled r) k = find_string r k.
Proof. reflexivity. Qed.

Lemma bios_big c r : info r = InfoType_Bios -> Bios_try_from_on true c r = Bios_try_from c (respelled r).
Proof.
  intros E. unfold Bios_try_from_on, Bios_try_from. change (version (respelled r)) with (version r).
  change (handle (respelled r)) with (handle r).
  destruct (version_ge (version r) (version_of 3 1)).
  { packed_branch [1; 1; 2; 1; 1; 8; 1; 1; 1; 1; 1; 1; 2] (@nil N). fields p [1; 1; 2; 1; 1; 8; 1; 1; 1; 1; 1; 1; 2]. reflexivity. }
  destruct (version_ge (version r) (version_of 2 4)).
  { packed_branch [1; 1; 2; 1; 1; 8; 1; 1; 1; 1; 1; 1] [2]. fields p [1; 1; 2; 1; 1; 8; 1; 1; 1; 1; 1; 1]. reflexivity. }
  { packed_branch [1; 1; 2; 1; 1; 8] [1; 1; 1; 1; 1; 1; 2]. fields p [1; 1; 2; 1; 1; 8]. reflexivity. }
Qed.
Lemma baseboard_big c r : info r = InfoType_BaseBoard -> BaseBoard_try_from_on true c r = BaseBoard_try_from c (respelled r).
Proof.
  intros E. unfold BaseBoard_try_from_on, BaseBoard_try_from. 
  change (handle (respelled r)) with (handle r).
  assert (L : len (data (respelled r)) = len (data r)).
  { unfold respelled. cbn [data]. rewrite len_take, respell_len, len_app. lia. }
  rewrite L.
  packed_branch [1; 1; 1; 1; 1; 1; 1; 2; 1] (@nil N). fields p [1; 1; 1; 1; 1; 1; 1; 2; 1]. reflexivity.
Qed.
Lemma cache_big c r : info r = InfoType_Cache -> Cache_try_from_on true c r = Cache_try_from c (respelled r).
Proof.
  intros E. unfold Cache_try_from_on, Cache_try_from. change (version (respelled r)) with (version r).
  change (handle (respelled r)) with (handle r).
  destruct (version_gt (version r) (version_of 3 1)).
  { packed_branch [1; 2; 2; 2; 2; 2; 1; 1; 1; 1; 4; 4] (@nil N). fields p [1; 2; 2; 2; 2; 2; 1; 1; 1; 1; 4; 4]. reflexivity. }
  destruct (version_gt (version r) (version_of 2 1)).
  { packed_branch [1; 2; 2; 2; 2; 2; 1; 1; 1; 1] [4; 4]. fields p [1; 2; 2; 2; 2; 2; 1; 1; 1; 1]. reflexivity. }
  destruct (version_gt (version r) (version_of 2 0)).
  { packed_branch [1; 2; 2; 2; 2; 2] [1; 1; 1; 1; 4; 4]. fields p [1; 2; 2; 2; 2; 2]. reflexivity. }
  reflexivity.
Qed.
Lemma processor_big c r : info r = InfoType_Processor -> Processor_try_from_on true c r = Processor_try_from c (respelled r).
Proof.
  intros E. unfold Processor_try_from_on, Processor_try_from, processor_family_or_2_on, processor_family_or_2.
  change (version (respelled r)) with (version r). change (handle (respelled r)) with (handle r).
  destruct (version_lt (version r) (version_of 2 1)).
  { packed_branch [1; 1; 1; 1; 8; 1; 1; 2; 2; 2; 1; 1] [2; 2; 2; 1; 1; 1; 1; 1; 1; 2; 2; 2; 2; 2].
    fields p [1; 1; 1; 1; 8; 1; 1; 2; 2; 2; 1; 1]. reflexivity. }
  destruct (version_lt (version r) (version_of 2 3)).
  { packed_branch [1; 1; 1; 1; 8; 1; 1; 2; 2; 2; 1; 1; 2; 2; 2] [1; 1; 1; 1; 1; 1; 2; 2; 2; 2; 2].
    fields p [1; 1; 1; 1; 8; 1; 1; 2; 2; 2; 1; 1; 2; 2; 2]. reflexivity. }
  destruct (version_lt (version r) (version_of 2 5)).
  { packed_branch [1; 1; 1; 1; 8; 1; 1; 2; 2; 2; 1; 1; 2; 2; 2; 1; 1; 1] [1; 1; 1; 2; 2; 2; 2; 2].
    fields p [1; 1; 1; 1; 8; 1; 1; 2; 2; 2; 1; 1; 2; 2; 2; 1; 1; 1]. reflexivity. }
  destruct (version_lt (version r) (version_of 2 6)).
  { packed_branch [1; 1; 1; 1; 8; 1; 1; 2; 2; 2; 1; 1; 2; 2; 2; 1; 1; 1; 1; 1; 1; 2] [2; 2; 2; 2].
    fields p [1; 1; 1; 1; 8; 1; 1; 2; 2; 2; 1; 1; 2; 2; 2; 1; 1; 1; 1; 1; 1; 2]. reflexivity. }
  destruct (version_lt (version r) (version_of 3 0)).
  { packed_branch [1; 1; 1; 1; 8; 1; 1; 2; 2; 2; 1; 1; 2; 2; 2; 1; 1; 1; 1; 1; 1; 2; 2] [2; 2; 2].
    fields p [1; 1; 1; 1; 8; 1; 1; 2; 2; 2; 1; 1; 2; 2; 2; 1; 1; 1; 1; 1; 1; 2; 2]. reflexivity. }
  { packed_branch [1; 1; 1; 1; 8; 1; 1; 2; 2; 2; 1; 1; 2; 2; 2; 1; 1; 1; 1; 1; 1; 2; 2; 2; 2; 2] (@nil N).
    fields p [1; 1; 1; 1; 8; 1; 1; 2; 2; 2; 1; 1; 2; 2; 2; 1; 1; 1; 1; 1; 1; 2; 2; 2; 2; 2]. reflexivity. }
Qed.

(* layouts of bytes *)
Ltac bytes_branch :=
  match goal with
  | |- context [read_packed ?c ?n ?r] =>
      let p := fresh "p" in let P := fresh "P" in
      destruct (read_packed c n r) as [p| |] eqn:P; cbn [obind]; try reflexivity;
      apply packed_len in P; rewrite !(field_one _ p) by lia
  end.
Lemma system_big c r : System_try_from_on true c r = System_try_from c r.
Proof.
  unfold System_try_from_on, System_try_from.
  destruct (version_lt (version r) (version_of 2 1)); [bytes_branch; reflexivity|].
  destruct (version_lt (version r) (version_of 2 4)); bytes_branch; reflexivity.
Qed.
Lemma port_big c r : PortConnector_try_from_on true c r = PortConnector_try_from c r.
Proof. unfold PortConnector_try_from_on, PortConnector_try_from. bytes_branch; reflexivity. Qed.
Lemma language_big c r : BiosLanguage_try_from_on true c r = BiosLanguage_try_from c r.
Proof.
  unfold BiosLanguage_try_from_on, BiosLanguage_try_from.
  match goal with |- (if ?b then _ else _) = _ => destruct b end; bytes_branch; reflexivity.
Qed.

(* ------------------------------------------------------------ enclosures *)

Lemma read_bytes_big d : read_bytes_on true 1 d = read_bytes 1 d.
Proof.
  unfold read_bytes_on, read_bytes. destruct (N.ltb_spec (len d) 1); [reflexivity|]. rewrite field_one by lia.
  unfold at_. rewrite drop_0. reflexivity.
Qed.
Lemma read_four_big a b c d l : read_bytes_on true 4 (a :: b :: c :: d :: l) = read_bytes 4 (d :: c :: b :: a :: l).
Proof.
  unfold read_bytes_on, read_bytes. rewrite !len_cons. destruct (_ <? 4) eqn:L; [lia|].
  cbn [field_on]. rewrite be_rev. reflexivity.
Qed.
Lemma elements_new_big c d a : ContainedElements_new_on true c d a = ContainedElements_new c d a.
Proof.
  unfold ContainedElements_new_on, ContainedElements_new. rewrite read_bytes_big. destruct (read_bytes 1 d) as [[n d1]|]; [|reflexivity].
  rewrite read_bytes_big. destruct (read_bytes 1 d1) as [[k d2]|]; reflexivity.
Qed.
Lemma element_big c d a : ContainedElement_from_on true c d a = ContainedElement_from c d a.
Proof.
  unfold ContainedElement_from_on, ContainedElement_from.
  destruct (N.leb_spec 3 (len d)) as [H|H]; cbn [obind].
  - rewrite !field_one by (rewrite len_take; lia). reflexivity.
  - destruct (flat_memory c); cbn [andb]; [|reflexivity]. destruct (N.leb_spec 3 (len (d ++ a))) as [H2|H2]; [|reflexivity].
    cbn [obind]. rewrite !field_one by (rewrite len_take; lia). reflexivity.
Qed.
Lemma elements_big c e : ContainedElements_next_on true c e = ContainedElements_next c e.
Proof.
  unfold ContainedElements_next_on, ContainedElements_next. destruct (ce_chunks e); [reflexivity|]. rewrite element_big. reflexivity.
Qed.

Lemma respell_one ws b m : respell (1 :: ws) (b :: m) = b :: respell ws m.
Proof. cbn [respell]. rewrite len_cons. destruct (N.leb_spec 1 (1 + len m)); [reflexivity|lia]. Qed.
Lemma respell_four a b c d m : respell [4] (a :: b :: c :: d :: m) = d :: c :: b :: a :: m.
Proof. cbn [respell]. rewrite !len_cons. destruct (N.leb_spec 4 (1 + (1 + (1 + (1 + len m))))); [reflexivity|lia]. Qed.
Lemma respell_nil ws : respell ws [] = [].
Proof.
  induction ws as [|w ws IH]; cbn [respell]; [reflexivity|]. rewrite len_nil. destruct (N.leb_spec w 0) as [H|H]; [|reflexivity].
  replace w with 0 by lia. rewrite take_0, drop_0, IH. reflexivity.
Qed.
Lemma take_cons {A} n (x : A) l : 0 < n -> take n (x :: l) = x :: take (n - 1) l.
Proof. intros H. unfold take. replace (N.to_nat n) with (S (N.to_nat (n - 1))) by lia. reflexivity. Qed.
Lemma drop_cons {A} n (x : A) l : 0 < n -> drop n (x :: l) = drop (n - 1) l.
Proof. intros H. unfold drop. replace (N.to_nat n) with (S (N.to_nat (n - 1))) by lia. reflexivity. Qed.

(* the rest of the decoder, from the bytes behind the first five *)
Lemma enclosure_big c r : info r = InfoType_Enclosure -> Enclosure_try_from_on true c r = Enclosure_try_from c (respelled r).
Proof.
  intros E. unfold Enclosure_try_from_on, Enclosure_try_from.
  change (info (respelled r)) with (info r). change (handle (respelled r)) with (handle r).
  assert (L : len (data (respelled r)) = len (data r)).
  { unfold respelled. cbn [data]. rewrite len_take, respell_len, len_app. lia. }
  rewrite L. destruct (N.ltb_spec (len (data r)) 5) as [H5|H5]; [reflexivity|]. cbv zeta.
  assert (D : exists b0 b1 b2 b3 b4 x y, data r = b0 :: b1 :: b2 :: b3 :: b4 :: x /\
    data (respelled r) = b0 :: b1 :: b2 :: b3 :: b4 :: y /\
    ((len x < 8 /\ len y = len x /\ take 4 x = take 4 y) \/
     (exists s0 s1 s2 s3 o0 o1 o2 o3 z, x = s0 :: s1 :: s2 :: s3 :: o0 :: o1 :: o2 :: o3 :: z /\
       y = s0 :: s1 :: s2 :: s3 :: o3 :: o2 :: o1 :: o0 :: z /\ after (respelled r) = after r))).
  { unfold respelled. cbn [data after]. rewrite E. cbn [widths].
    destruct (data r) as [|b0 [|b1 [|b2 [|b3 [|b4 x]]]]]; try (exfalso; unfold len in H5; cbn [length] in H5; lia).
    exists b0, b1, b2, b3, b4, x, (take (len x) (respell [1; 1; 1; 1; 4] (x ++ after r))).
    split; [reflexivity|]. rewrite !len_cons. split.
    { cbn [app]. rewrite !respell_one. rewrite !take_cons by lia. do 5 f_equal. f_equal. lia. }
    destruct x as [|s0 [|s1 [|s2 [|s3 [|o0 [|o1 [|o2 [|o3 z]]]]]]]].
    9:{ right. exists s0, s1, s2, s3, o0, o1, o2, o3, z. split; [reflexivity|]. cbn [app]. rewrite !respell_one, respell_four, !len_cons.
        rewrite !take_cons by lia. rewrite !drop_cons by lia. split.
        - do 8 f_equal. apply take_app_exact. lia.
        - apply drop_app_exact. lia. }
    all: left; cbn [app]; rewrite ?respell_one; rewrite ?len_cons, ?len_nil; rewrite ?take_cons by lia;
      (split; [lia|]); (split; [rewrite ?len_cons, ?len_take, ?respell_len, ?len_cons, ?len_nil; lia|]); reflexivity. }
  destruct D as [b0 [b1 [b2 [b3 [b4 [x [y [-> [-> D]]]]]]]]].
  change (take 5 (b0 :: b1 :: b2 :: b3 :: b4 :: x)) with [b0; b1; b2; b3; b4].
  change (take 5 (b0 :: b1 :: b2 :: b3 :: b4 :: y)) with [b0; b1; b2; b3; b4].
  change (drop 5 (b0 :: b1 :: b2 :: b3 :: b4 :: x)) with x.
  change (drop 5 (b0 :: b1 :: b2 :: b3 :: b4 :: y)) with y.
  assert (F : forall o, o < 5 -> field_on true o 1 [b0; b1; b2; b3; b4] = at_ o 1 [b0; b1; b2; b3; b4]).
  { intros o Ho. apply field_one. exact Ho. }
  rewrite !F by lia.
  assert (R1 : forall (o : option (N * list N)), oand_then o (fun '(_, d) => read_bytes_on true 1 d) = oand_then o (fun '(_, d) => read_bytes 1 d)).
  { intros [[v d]|]; [apply read_bytes_big|reflexivity]. }
  rewrite !R1, read_bytes_big.
  assert (R : forall b d, read_bytes 1 (b :: d) = Some (b, d)).
  { intros b d. unfold read_bytes. rewrite len_cons. destruct (N.ltb_spec (1 + len d) 1); [lia|].
    change (take 1 (b :: d)) with [b]. change (drop 1 (b :: d)) with d.
    replace (le [b]) with b by (cbn [le]; lia). reflexivity. }
  destruct D as [[Hx [Hy Ht]]|[s0 [s1 [s2 [s3 [o0 [o1 [o2 [o3 [z [-> [-> Ha]]]]]]]]]]]].
  - assert (Q : forall big, oand_then (oand_then (oand_then (oand_then (read_bytes 1 x) (fun '(_, d) => read_bytes 1 d))
        (fun '(_, d) => read_bytes 1 d)) (fun '(_, d) => read_bytes 1 d)) (fun '(_, d) => read_bytes_on big 4 d) = None).
    { intros big. destruct x as [|s0 [|s1 [|s2 [|s3 x]]]]; try reflexivity. rewrite R. cbn [oand_then]. rewrite R. cbn [oand_then].
      rewrite R. cbn [oand_then]. rewrite R. cbn [oand_then]. unfold read_bytes_on. rewrite !len_cons in Hx.
      destruct (N.ltb_spec (len x) 4); [reflexivity|lia]. }
    rewrite Q. clear Q.
    destruct x as [|s0 [|s1 [|s2 [|s3 x]]]]; destruct y as [|t0 [|t1 [|t2 [|t3 y]]]];
      rewrite ?len_cons, ?len_nil in Hy; try lia; unfold take in Ht; cbn [N.to_nat Pos.to_nat Pos.iter_op Nat.add firstn] in Ht;
      try (injection Ht; intros; subst); try reflexivity.
    rewrite !len_cons in Hx. rewrite !R. cbn [oand_then]. rewrite !R. cbn [oand_then]. rewrite !R. cbn [oand_then].
    rewrite !R. cbn [oand_then].
    replace (read_bytes 4 y) with (@None (N * list N)) by (unfold read_bytes; destruct (N.ltb_spec (len y) 4); [reflexivity|lia]).
    reflexivity.
  - rewrite Ha. rewrite !R. cbn [oand_then]. rewrite !R. cbn [oand_then]. rewrite !R. cbn [oand_then]. rewrite !R. cbn [oand_then].
    rewrite read_four_big.
    destruct (read_bytes 4 (o3 :: o2 :: o1 :: o0 :: z)) as [[v d]|] eqn:R4; cbn [oand_then]; [|reflexivity].
    destruct (read_bytes 1 d) as [[v1 d1]|]; cbn [oand_then]; [|reflexivity].
    destruct (read_bytes 1 d1) as [[v2 d2]|]; cbn [oand_then]; [|reflexivity].
    rewrite elements_new_big. change (find_string (respelled r)) with (find_string r).
    do 4 (match goal with |- context [find_string r ?k] => destruct (find_string r k) end; cbn [rbind obind]; [|reflexivity]).
    destruct (ContainedElements_new c d2 (after r)) as [o| |]; cbn [obind]; try reflexivity.
    destruct o as [[e d3]|]; cbn [oand_then]; [|reflexivity]. rewrite read_bytes_big. reflexivity.
Qed.

Lemma dispatch_big c r : dispatch_on true c r = dispatch c (respelled r).
Proof.
  unfold dispatch. change (info (respelled r)) with (info r). unfold dispatch_on.
  destruct (info r) eqn:E.
  all: try (rewrite (respelled_none r) by (rewrite E; reflexivity)).
  all: try reflexivity.
  - rewrite bios_big by exact E. reflexivity.
  - rewrite system_big. reflexivity.
  - rewrite baseboard_big by exact E. reflexivity.
  - rewrite enclosure_big by exact E. reflexivity.
  - rewrite processor_big by exact E. reflexivity.
  - rewrite cache_big by exact E. reflexivity.
  - rewrite port_big. reflexivity.
  - rewrite language_big. reflexivity.
Qed.

(* ------------------------------------------------------------ outcomes *)

Definition sim {A} (x y : out (res A)) : Prop :=
  match x, y with
  | Val (Ok a), Val (Ok b) => a = b
  | Val (Err _), Val (Err _) | Panic, Panic | UB, UB => True
  | _, _ => False
  end.
Lemma sim_refl {A} (x : out (res A)) : sim x x.
Proof. destruct x as [[a|e]| |]; cbn; auto. Qed.
Lemma alike_refl {A} (x : out (res A)) : alike x x.
Proof. destruct x as [[a|e]| |]; cbn; auto. Qed.
Lemma a_rbind {A B C} (m1 m2 : out (res A)) (k1 : A -> out (res B)) (k2 : A -> out (res C)) :
  sim m1 m2 -> (forall a, alike (k1 a) (k2 a)) -> alike (rbind m1 k1) (rbind m2 k2).
Proof. destruct m1 as [[a|e]| |], m2 as [[b|f]| |]; cbn; intros H K; try contradiction; auto. subst. apply K. Qed.
Lemma s_rbind {A B} (m1 m2 : out (res A)) (k1 k2 : A -> out (res B)) :
  sim m1 m2 -> (forall a, sim (k1 a) (k2 a)) -> sim (rbind m1 k1) (rbind m2 k2).
Proof. destruct m1 as [[a|e]| |], m2 as [[b|f]| |]; cbn; intros H K; try contradiction; auto. subst. apply K. Qed.
Lemma a_obind {A B C} (m : out A) (k1 : A -> out (res B)) (k2 : A -> out (res C)) :
  (forall a, m = Val a -> alike (k1 a) (k2 a)) -> alike (obind m k1) (obind m k2).
Proof. destruct m as [a| |]; cbn; auto. Qed.
Lemma a_map {A B} (f : A -> B) (x y : out (res A)) : alike x y -> alike (omap (rmap f) x) (omap (rmap f) y).
Proof. destruct x as [[a|e]| |], y as [[b|g]| |]; cbn; auto. Qed.

Section Outcome.
Context (c : cfg) (v : SmbiosVersion) (i : InfoType) (l h1 h2 : N) (d st af : list N).
Let r := {| version := v; info := i; length_ := l; handle := h1; data := d; strings := st; after := af |}.
Let t := {| version := v; info := i; length_ := l; handle := h2; data := d; strings := st; after := af |}.

Lemma o_find k : sim (Val (find_string r k)) (Val (find_string t k)).
Proof.
  unfold find_string. destruct (k =? 0); [reflexivity|]. change (raw_strings t) with (raw_strings r).
  destruct (strings_nth _ _); cbn; auto.
Qed.
Lemma o_get_string o : sim (get_string c o r) (get_string c o t).
Proof.
  unfold get_string. apply s_rbind; [exact (sim_refl (get c 1 o r))|]. intros k. apply o_find.
Qed.
Lemma o_some_if b k : sim (some_if b (find_string r k)) (some_if b (find_string t k)).
Proof.
  unfold some_if. destruct b; [|reflexivity]. pose proof (o_find k) as H. cbn [sim] in *.
  destruct (find_string r k), (find_string t k); cbn [rmap]; try contradiction; auto. f_equal. exact H.
Qed.
Lemma o_ok k : ok (find_string t k) = ok (find_string r k).
Proof. pose proof (o_find k) as H. cbn [sim] in H. destruct (find_string r k), (find_string t k); cbn; try contradiction; subst; reflexivity. Qed.
Lemma o_basic_string o : basic_string c o t = basic_string c o r.
Proof.
  unfold basic_string. change (get_ok c 1 o t) with (get_ok c 1 o r). destruct (get_ok c 1 o r) as [x| |]; cbn [obind]; try reflexivity.
  f_equal. destruct (ofilter _ x) as [k|]; cbn [oand_then]; [apply o_ok|reflexivity].
Qed.
Lemma o_get_string_ok o : get_string_ok c o t = get_string_ok c o r.
Proof.
  unfold get_string_ok. pose proof (o_get_string o) as H.
  destruct (get_string c o r) as [[a|e]| |], (get_string c o t) as [[b|f]| |]; cbn in *; try contradiction; subst; reflexivity.
Qed.

Ltac outcome_step :=
  cbv zeta;
  match goal with
  | |- alike (Val (Ok _)) (Val (Ok _)) => exact I
  | |- alike (Val (Err _)) (Val (Err _)) => exact I
  | |- alike ?m ?m => apply alike_refl
  | |- alike (rbind _ _) (rbind _ _) => apply a_rbind; [|intros ?]
  | |- alike (obind _ _) (obind _ _) => apply a_obind; intros ? ?
  | |- alike (if ?b then _ else _) (if ?b then _ else _) => destruct b
  | |- alike (match ?x with _ => _ end) (match ?x with _ => _ end) => destruct x
  | |- sim ?m ?m => apply sim_refl
  | |- sim (Val (find_string _ _)) _ => apply o_find
  | |- sim (get_string _ _ _) _ => apply o_get_string
  | |- sim (some_if _ _) _ => apply o_some_if
  end.
Ltac same_data :=
  change (version t) with (version r); change (data t) with (data r); change (info t) with (info r);
  change (length_ t) with (length_ r); change (strings t) with (strings r);
  repeat match goal with
  | |- context [get ?c ?w ?o t] => change (get c w o t) with (get c w o r)
  | |- context [get_ok ?c ?w ?o t] => change (get_ok c w o t) with (get_ok c w o r)
  | |- context [get_slice ?c ?w ?o t] => change (get_slice c w o t) with (get_slice c w o r)
  | |- context [basic_string ?c ?o t] => rewrite (o_basic_string o)
  | |- context [get_string_ok ?c ?o t] => rewrite (o_get_string_ok o)
  | |- context [read_packed ?c ?n t] => change (read_packed c n t) with (read_packed c n r)
  | |- context [strings_count t] => change (strings_count t) with (strings_count r)
  | |- context [raw_strings t] => change (raw_strings t) with (raw_strings r)
  end.
Ltac bytes_too :=
  match goal with
  | P : read_packed _ ?n _ = Val ?p |- _ => pose proof (packed_len _ _ _ _ P); clear P; rewrite ?(field_one _ p) by lia
  end.

Lemma o_bios : alike (Bios_try_from c r) (Bios_try_from_on true c t).
Proof. unfold Bios_try_from, Bios_try_from_on. same_data. repeat first [bytes_too|outcome_step]. Qed.
Lemma o_system : alike (System_try_from c r) (System_try_from_on true c t).
Proof. unfold System_try_from, System_try_from_on. same_data. repeat first [bytes_too|outcome_step]. Qed.
Lemma o_baseboard : alike (BaseBoard_try_from c r) (BaseBoard_try_from_on true c t).
Proof. unfold BaseBoard_try_from, BaseBoard_try_from_on. same_data. repeat first [bytes_too|outcome_step]. Qed.
Lemma o_processor : alike (Processor_try_from c r) (Processor_try_from_on true c t).
Proof. unfold Processor_try_from, Processor_try_from_on. same_data. repeat first [bytes_too|outcome_step]. Qed.
Lemma o_cache : alike (Cache_try_from c r) (Cache_try_from_on true c t).
Proof.
  assert (K : forall w1 w2 (k1 k2 : CacheConfiguration -> out (res Cache)), (forall a b, alike (k1 a) (k2 b)) ->
    alike (obind (CacheConfiguration_from w1) k1) (obind (CacheConfiguration_from w2) k2)).
  { intros w1 w2 k1 k2 H. destruct (configuration_total w1) as [x ->], (configuration_total w2) as [y ->]. apply H. }
  unfold Cache_try_from, Cache_try_from_on. same_data. repeat first [bytes_too|apply K; intros ? ?|outcome_step].
Qed.
Lemma o_port : alike (PortConnector_try_from c r) (PortConnector_try_from_on true c t).
Proof. unfold PortConnector_try_from, PortConnector_try_from_on. same_data. repeat first [bytes_too|outcome_step]. Qed.
Lemma o_language : alike (BiosLanguage_try_from c r) (BiosLanguage_try_from_on true c t).
Proof. unfold BiosLanguage_try_from, BiosLanguage_try_from_on. same_data. repeat first [bytes_too|outcome_step]. Qed.
Lemma four_wide (x : list N) :
  (read_bytes 4 x = None /\ read_bytes_on true 4 x = None) \/
  exists a b y, read_bytes 4 x = Some (a, y) /\ read_bytes_on true 4 x = Some (b, y).
Proof. unfold read_bytes, read_bytes_on. destruct (len x <? 4); [auto|]. right. eauto. Qed.
Lemma o_enclosure : alike (Enclosure_try_from c r) (Enclosure_try_from_on true c t).
Proof.
  unfold Enclosure_try_from, Enclosure_try_from_on. same_data. destruct (N.ltb_spec (len (data r)) 5); [exact I|]. cbv zeta.
  rewrite !field_one by (rewrite len_take; lia).
  do 4 (apply a_rbind; [apply o_find|intros ?]).
  change (after t) with (after r).
  assert (R1 : forall (o : option (N * list N)), oand_then o (fun '(_, d) => read_bytes_on true 1 d) = oand_then o (fun '(_, d) => read_bytes 1 d)).
  { intros [[w x]|]; [apply read_bytes_big|reflexivity]. }
  rewrite !R1, read_bytes_big.
  assert (Q : forall m (f : option ContainedElements -> option text -> Enclosure) (g : option ContainedElements -> option text -> Enclosure),
    alike (let! contained := m in
      let? sku_number := match oand_then contained (fun '(_, d) => read_bytes 1 d) with
                         | Some (n, _) => Val (rmap Some (find_string r n)) | None => Val (Ok None) end in
      Val (Ok (f (option_map fst contained) sku_number)))
     (let! contained := m in
      let? sku_number := match oand_then contained (fun '(_, d) => read_bytes_on true 1 d) with
                         | Some (n, _) => Val (rmap Some (find_string t n)) | None => Val (Ok None) end in
      Val (Ok (g (option_map fst contained) sku_number)))).
  { intros m f g. apply a_obind. intros [[e x]|] _; [|exact I]. cbn [oand_then]. rewrite read_bytes_big.
    destruct (read_bytes 1 x) as [[n y]|]; [|exact I]. apply a_rbind; [|intros; exact I].
    pose proof (o_find n) as F. cbn [sim] in *. destruct (find_string r n), (find_string t n); cbn [rmap]; try contradiction; subst; auto. }
  destruct (oand_then (oand_then (oand_then (read_bytes 1 (drop 5 (data r))) (fun '(_, d) => read_bytes 1 d)) (fun '(_, d) => read_bytes 1 d))
    (fun '(_, d) => read_bytes 1 d)) as [[w x]|]; cbn [oand_then].
  - destruct (four_wide x) as [[-> ->]|[a' [b' [y [-> ->]]]]]; cbn [oand_then]; [exact I|].
    destruct (read_bytes 1 y) as [[w1 y1]|]; cbn [oand_then]; [|exact I].
    destruct (read_bytes 1 y1) as [[w2 y2]|]; cbn [oand_then]; [|exact I].
    rewrite elements_new_big.
    match goal with |- alike (obind _ ?k1) (obind _ ?k2) => idtac end.
    apply Q.
  - exact I.
Qed.
Lemma o_array : alike (PhysicalMemoryArray_try_from c r) (PhysicalMemoryArray_try_from c t).
Proof.
  unfold PhysicalMemoryArray_try_from. same_data. destruct (version_gt (version r) (version_of 2 1)); [|cbn [rbind]; apply alike_refl].
  do 3 (match goal with |- context [index ?a ?b] => destruct (index a b) end; cbn [obind rbind]; try exact I).
  destruct (get_optional_uint 4 3 (data r) 0x80000000) as [[[m p]|e]| |]; cbn [obind rbind]; try exact I.
  destruct (get_optional_uint 2 p (data r) 0xFFFE) as [[[m1 p1]|e]| |]; cbn [obind rbind]; try exact I.
  destruct (get_uint 2 p1 (data r)) as [[[m2 p2]|e]| |]; cbn [obind rbind]; try exact I.
  destruct (version_gt (version r) (version_of 2 7)); [|exact I]. cbn [array_maximum_capacity].
  apply a_rbind; [apply sim_refl|intros; exact I].
Qed.

Lemma outcome_section : alike (dispatch c r) (dispatch_on true c t).
Proof.
  unfold dispatch, dispatch_on. change (info t) with (info r). destruct (info r); try exact I; apply a_map.
  all: first [apply o_bios|apply o_system|apply o_baseboard|apply o_enclosure|apply o_processor|apply o_cache|apply o_port|apply o_language|apply o_array|
    cbv beta delta [SystemSlots_try_from OemStrings_try_from SystemConfigurationOptions_try_from GroupAssociations_try_from
      SystemEventLog_try_from MemoryDevice_try_from MemoryError32_try_from MemoryArrayMappedAddress_try_from
      MemoryDeviceMappedAddress_try_from BuiltInPointingDevice_try_from PortableBattery_try_from];
    same_data; repeat outcome_step].
Qed.
End Outcome.

Lemma outcome_big c r t : mirrored_raw r t -> alike (dispatch c r) (dispatch c (respelled t)).
Proof.
  intros H. rewrite <- dispatch_big. destruct r, t. unfold mirrored_raw in H. cbn in H.
  destruct H as [-> [-> [-> [_ [-> [-> ->]]]]]]. apply outcome_section.
Qed.

(* ------------------------------------------------------------ the iteration *)

Lemma next_big c s : all_bytes (buffer s) ->
  (exists r t s1, next_raw c s = Val (Some (Ok r), s1) /\ mirrored_raw r t /\
    exists s2,
    next c s = omap (fun x => (Some x, s2)) (dispatch c r) /\
    next_on true c s = omap (fun x => (Some x, s2)) (dispatch c (respelled t))) \/
  (next_on true c s = next c s /\ forall r s', next_raw c s <> Val (Some (Ok r), s')).
Proof.
  intros A. unfold next, next_on. destruct (next_raw_mirror c s A) as [[r [t [s1 [E1 [E2 M]]]]]|[E N]].
  - left. exists r, t, s1. split; [exact E1|]. split; [exact M|]. rewrite E1, E2. cbn [obind].
    assert (I : info t = info r) by (destruct M as [_ [-> _]]; reflexivity). rewrite I.
    eexists. split; [reflexivity|]. rewrite dispatch_big. reflexivity.
  - right. split; [|exact N]. rewrite E. destruct (next_raw c s) as [[[[r|e]|] s1]| |]; cbn [obind]; try reflexivity.
    exfalso. eapply N. reflexivity.
Qed.
Lemma next_raw_buffer c s x s1 : next_raw c s = Val (x, s1) -> buffer s1 = buffer s.
Proof.
  unfold next_raw. destruct (u_add c 32 (idx s) size_of_header) as [h| |]; cbn [obind]; try discriminate.
  destruct (_ <? h); [intros E; injection E as _ <-; reflexivity|].
  destruct (slice_index_from _ _) as [w| |]; cbn [obind]; try discriminate. destruct (len w <? _); [discriminate|].
  destruct (u_add _ _ _ _) as [k| |]; cbn [obind]; try discriminate.
  destruct (_ <=? k); [intros E; injection E as _ <-; reflexivity|].
  destruct (slice_index_from _ _) as [w2| |]; cbn [obind]; try discriminate.
  destruct (find_nulnul w2); [|intros E; injection E as _ <-; reflexivity].
  destruct (slice_index _ _ _) as [y| |]; cbn [obind]; try discriminate.
  destruct (u_add _ _ _ _) as [k2| |]; cbn [obind]; try discriminate.
  destruct (slice_index _ _ _) as [y2| |]; cbn [obind]; try discriminate.
  intros E. injection E as _ <-. reflexivity.
Qed.
Lemma next_buffer c s x s1 : next c s = Val (x, s1) -> buffer s1 = buffer s.
Proof.
  unfold next. destruct (next_raw c s) as [[[[r|e]|] s0]| |] eqn:E; cbn [obind]; try discriminate;
    apply next_raw_buffer in E.
  - destruct (dispatch c r); cbn [obind]; try discriminate. intros H. injection H as _ <-. destruct (_ && _); exact E.
  - intros H. injection H as _ <-. exact E.
  - intros H. injection H as _ <-. exact E.
Qed.
Lemma run_big c s l e : all_bytes (buffer s) -> runs (next c) s l e ->
  exists l', runs (next_on true c) s l' e /\ Forall2 (counterpart c) l l'.
Proof.
  intros A R. induction R as [s s' E|s E|s E|s a s1 l e E R IH].
  all: destruct (next_big c s A) as [[r [t [s0 [E0 [M [s2 [N1 N2]]]]]]]|[N F]].
  - exfalso. rewrite N1 in E. destruct (dispatch c r) as [x| |]; discriminate.
  - exists []. split; [apply runs_none; congruence|constructor].
  - exists []. split; [|constructor]. apply runs_panic. rewrite N2. rewrite N1 in E. pose proof (outcome_big c r t M) as O.
    destruct (dispatch c r) as [[x|x]| |], (dispatch c (respelled t)) as [[y|y]| |]; try discriminate; try contradiction. reflexivity.
  - exists []. split; [apply runs_panic; congruence|constructor].
  - exists []. split; [|constructor]. apply runs_ub. rewrite N2. rewrite N1 in E. pose proof (outcome_big c r t M) as O.
    destruct (dispatch c r) as [[x|x]| |], (dispatch c (respelled t)) as [[y|y]| |]; try discriminate; try contradiction. reflexivity.
  - exists []. split; [apply runs_ub; congruence|constructor].
  - assert (B : all_bytes (buffer s1)) by (rewrite (next_buffer _ _ _ _ E); exact A).
    destruct (IH B) as [l' [R' F']]. rewrite N1 in E. pose proof (outcome_big c r t M) as O.
    destruct (dispatch c r) as [x| |] eqn:D1; try discriminate. cbn [omap obind] in E. injection E as <- <-.
    destruct (dispatch c (respelled t)) as [y| |] eqn:D2; try (destruct x; contradiction).
    exists (y :: l'). split; [eapply runs_some; [rewrite N2; reflexivity|exact R']|].
    constructor; [|exact F']. right. exists r, t. auto.
  - assert (B : all_bytes (buffer s1)) by (rewrite (next_buffer _ _ _ _ E); exact A).
    destruct (IH B) as [l' [R' F']]. exists (a :: l'). split; [eapply runs_some; [rewrite N; exact E|exact R']|].
    constructor; [|exact F']. left. split; [reflexivity|].
    unfold next in E. destruct (next_raw c s) as [[[[r|x]|] s0]| |] eqn:E0; cbn [obind] in E; try discriminate.
    + exfalso. eapply F. reflexivity.
    + injection E as <- _. eauto.
Qed.

(* ------------------------------------------------------------ peer devices *)

Lemma device_big p :
  (Device_from p = UB /\ Device_from_on true p = UB) \/
  (exists x y, Device_from p = Val x /\ Device_from_on true p = Val y /\ (all_bytes p -> peers_alike x y)).
Proof.
  unfold Device_from, Device_from_on. destruct (N.leb_spec 5 (len p)) as [H|H]; [right|auto].
  do 2 eexists. split; [reflexivity|]. split; [reflexivity|]. intros A. unfold peers_alike.
  cbn [device_segment_group_number device_bus_number device_device_and_function_number device_data_bus_width].
  rewrite !field_one by lia. split; [apply (field_reversed 0 2); [exact A|lia]|]. auto.
Qed.
Lemma peers_big s l e : all_bytes (peer_chunks s) -> runs PeerDevices_next s l e ->
  exists l', runs (PeerDevices_next_on true) s l' e /\ Forall2 peers_alike l l'.
Proof.
  intros A R. induction R as [s s' E|s E|s E|s a s1 l e E R IH]; unfold PeerDevices_next in E.
  - exists []. split; [|constructor]. apply runs_none. unfold PeerDevices_next_on.
    destruct (peer_chunks s) as [|b p]; [exact E|]. destruct (Device_from _); discriminate.
  - exfalso. destruct (peer_chunks s) as [|b p]; [discriminate|].
    destruct (device_big (take 5 (b :: p))) as [[D _]|[x [y [D _]]]]; rewrite D in E; discriminate.
  - exists []. split; [|constructor]. apply runs_ub. unfold PeerDevices_next_on.
    destruct (peer_chunks s) as [|b p]; [discriminate|].
    destruct (device_big (take 5 (b :: p))) as [[D D2]|[x [y [D _]]]]; [rewrite D2; reflexivity|rewrite D in E; discriminate].
  - destruct (peer_chunks s) as [|b p] eqn:P; [discriminate|].
    destruct (device_big (take 5 (b :: p))) as [[D _]|[x [y [D [D2 K]]]]]; rewrite D in E; cbn [obind] in E; [discriminate|].
    injection E as <- <-. destruct IH as [l' [R' F']]; [cbn [peer_chunks]; apply all_bytes_drop, A|].
    exists (y :: l'). split.
    + eapply runs_some; [|exact R']. unfold PeerDevices_next_on. rewrite P, D2. reflexivity.
    + constructor; [|exact F']. apply K, all_bytes_take, A.
Qed.

Lemma little_decoders :
  (forall c r, dispatch_on false c r = dispatch c r) /\ (forall c s, next_on false c s = next c s) /\
  (forall s, PeerDevices_next_on false s = PeerDevices_next s) /\
  (forall c s, ContainedElements_next_on false c s = ContainedElements_next c s).
Proof. repeat split; reflexivity. Qed.
Lemma unaffected c r :
  ~ In (info r) [InfoType_Bios; InfoType_BaseBoard; InfoType_Enclosure; InfoType_Processor; InfoType_Cache] ->
  dispatch_on true c r = dispatch c r.
Proof.
  intros H. rewrite dispatch_big, respelled_none; [reflexivity|]. destruct (info r); try reflexivity; exfalso; apply H; cbn; tauto.
Qed.
Lemma same_outcome c r : alike (dispatch c r) (dispatch_on true c r).
Proof. destruct r. apply outcome_section. Qed.
