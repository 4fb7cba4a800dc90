(* What happens to iteration when the buffer is larger than 32 bits can count. *)
From Coq Require Import ZArith Lia ZifyBool ZifyNat ZifyN.
From Verif Require Import Base G_Enums M_Raw M_Entry M_Iter Spec S_Iter S_Lists L_Base.
Ltac Zify.zify_post_hook ::= Z.div_mod_to_equations.
Local Open Scope N_scope.

Lemma nulnul_repeat k : forall i post, find_nulnul_from i (repeat 65 k ++ 0 :: 0 :: post) = Some (i + N.of_nat k + 1).
Proof.
  induction k as [|k IH]; intros i post.
  - cbn. f_equal; lia.
  - destruct k as [|k].
    + cbn. f_equal; lia.
    + change (repeat 65 (S (S k)) ++ 0 :: 0 :: post) with (65 :: 65 :: repeat 65 k ++ 0 :: 0 :: post).
      cbn [find_nulnul_from]. change (65 =? 0) with false. cbn [andb].
      change (find_nulnul_from (i + 1) (repeat 65 (S k) ++ 0 :: 0 :: post) = Some (i + N.of_nat (S (S k)) + 1)).
      rewrite IH. f_equal. lia.
Qed.

Lemma u_add_wraps c a b : overflow_checks c = false -> u_add c 32 a b = Val ((a + b) mod 2 ^ 32).
Proof.
  intros H. unfold u_add. rewrite H. destruct (N.ltb_spec (a + b) (2 ^ 32)); [|reflexivity].
  rewrite N.mod_small by assumption. reflexivity.
Qed.

Lemma u_add_either c a b : overflow_checks c = false \/ a + b < 2 ^ 32 -> u_add c 32 a b = Val ((a + b) mod 2 ^ 32).
Proof.
  intros [H|H]; [apply u_add_wraps, H|]. unfold u_add. rewrite (proj2 (N.ltb_lt _ _) H), N.mod_small by exact H. reflexivity.
Qed.

Lemma wrap_next_raw c v n b i k l h0 h1 more term si se :
  overflow_checks c = false \/ (i + 4 < 2 ^ 32 /\ i + l < 2 ^ 32 /\ si + (term + 1) mod 2 ^ 32 < 2 ^ 32) ->
  (i + 4) mod 2 ^ 32 <= n -> i <= len b -> drop i b = k :: l :: h0 :: h1 :: more ->
  si = (i + l) mod 2 ^ 32 -> si < n -> si <= len b -> find_nulnul (drop si b) = Some term ->
  se = (si + (term + 1) mod 2 ^ 32) mod 2 ^ 32 ->
  (i + 4) mod 2 ^ 32 <= si -> si <= se -> se <= len b ->
  exists r, next_raw c {| smbios_version := v; smbios_len_ := n; idx := i; buffer := b |} =
      Val (Some (Ok r), {| smbios_version := v; smbios_len_ := n; idx := se; buffer := b |}) /\
    info r = InfoType_from k /\ strings r = take (se - si) (drop si b).
Proof.
  intros HO H4 HI HD HSI HSN HSL HT HSE HDS HSS HSEL. unfold next_raw. cbn [smbios_version smbios_len_ idx buffer].
  unfold size_of_header in *. rewrite !(u_add_either c i 4) by tauto. cbn [obind].
  destruct (N.ltb_spec n ((i + 4) mod 2 ^ 32)); [lia|].
  unfold slice_index_from, slice_get_from. rewrite (proj2 (N.leb_le i (len b)) HI). cbn [obind]. rewrite HD.
  destruct (N.ltb_spec (len (k :: l :: h0 :: h1 :: more)) 4) as [L|L]; [unfold len in L; cbn [length] in L; lia|].
  change (at_ 0 1 (k :: l :: h0 :: h1 :: more)) with (k + 256 * 0).
  change (at_ 1 1 (k :: l :: h0 :: h1 :: more)) with (l + 256 * 0).
  rewrite N.mul_0_r, !N.add_0_r. rewrite (u_add_either c i l) by tauto. rewrite <- HSI. cbn [obind].
  destruct (N.leb_spec n si); [lia|]. rewrite (proj2 (N.leb_le si (len b)) HSL). cbn [obind]. rewrite HT.
  unfold slice_index, slice_get, cast. rewrite (u_add_either c si) by tauto. cbn [obind].
  rewrite (proj2 (N.leb_le _ _) HDS), (proj2 (N.leb_le _ _) HSL). cbn [andb obind].
  rewrite <- HSE, (proj2 (N.leb_le _ _) HSS), (proj2 (N.leb_le _ _) HSEL). cbn [andb obind].
  eexists. split; [reflexivity|]. split; reflexivity.
Qed.

Lemma other_next c v n i b r k se : next_raw c {| smbios_version := v; smbios_len_ := n; idx := i; buffer := b |} =
    Val (Some (Ok r), {| smbios_version := v; smbios_len_ := n; idx := se; buffer := b |}) ->
  info r = InfoType_from k -> k = 0xF0 \/ k = 65 ->
  next c {| smbios_version := v; smbios_len_ := n; idx := i; buffer := b |} =
    Val (Some (Ok (SOther r)), {| smbios_version := v; smbios_len_ := n; idx := se; buffer := b |}).
Proof.
  intros H HI HK. unfold next. rewrite H. cbn [obind].
  assert (E : is_end (info r) = false /\ dispatch c r = Val (Ok (SOther r))).
  { unfold dispatch. rewrite HI. destruct HK; subst k; split; reflexivity. }
  destruct E as [-> ->]. rewrite andb_false_r. cbn [obind]. reflexivity.
Qed.

Definition wide (m : nat) : list N :=
  [0xF0; 4; 0; 0] ++ repeat 65 65 ++ repeat 65 m ++ [0; 0; 0xF0; 4; 1; 0].

Lemma wide_len m : N.of_nat m + 74 = 2 ^ 32 -> len (wide m) = 2 ^ 32 + 1.
Proof. intros H. unfold wide, len. rewrite !app_length, !repeat_length. cbn [length]. lia. Qed.

Lemma wide_drop69 m : drop 69 (wide m) = repeat 65 m ++ [0; 0; 0xF0; 4; 1; 0].
Proof. reflexivity. Qed.
Lemma wide_drop4 m : drop 4 (wide m) = repeat 65 (65 + m) ++ [0; 0; 0xF0; 4; 1; 0].
Proof. rewrite repeat_app, <- app_assoc. reflexivity. Qed.
Lemma wide_dropend m : N.of_nat m + 74 = 2 ^ 32 -> drop (2 ^ 32 - 3) (wide m) = [0xF0; 4; 1; 0].
Proof.
  intros H. unfold wide. change [0; 0; 0xF0; 4; 1; 0] with ([0; 0] ++ [0xF0; 4; 1; 0]). rewrite !app_assoc.
  apply drop_app_exact. rewrite !len_app. unfold len. rewrite !repeat_length. cbn [length]. lia.
Qed.

Section Wide.
Variables (c : cfg) (v : SmbiosVersion) (n : N) (m : nat).
Hypotheses (HO : overflow_checks c = false) (HM : N.of_nat m + 74 = 2 ^ 32) (HN : 100 <= n).
Let at_idx (i : N) : Structures := {| smbios_version := v; smbios_len_ := n; idx := i; buffer := wide m |}.

Lemma wide_first : exists r, next c (at_idx 0) = Val (Some (Ok (SOther r)), at_idx (2 ^ 32 - 3)).
Proof.
  pose proof (wide_len m HM) as L.
  destruct (wrap_next_raw c v n (wide m) 0 0xF0 4 0 0 (drop 4 (wide m)) (N.of_nat (65 + m) + 1) 4 (2 ^ 32 - 3)) as [r [H [I _]]];
    try ((left; exact HO) || (rewrite ?L; cbn; lia) || reflexivity || (cbn; lia)).
  - rewrite wide_drop4. apply nulnul_repeat.
  - lia.
  - exists r. apply (other_next c v n 0 _ r 0xF0); auto.
Qed.
Lemma wide_middle : exists r, next c (at_idx 4) = Val (Some (Ok (SOther r)), at_idx (2 ^ 32 - 3)).
Proof.
  pose proof (wide_len m HM) as L.
  destruct (wrap_next_raw c v n (wide m) 4 65 65 65 65 (drop 8 (wide m)) (N.of_nat m + 1) 69 (2 ^ 32 - 3)) as [r [H [I _]]];
    try ((left; exact HO) || (rewrite ?L; cbn; lia) || reflexivity || (cbn; lia)).
  - rewrite wide_drop69. apply nulnul_repeat.
  - lia.
  - exists r. apply (other_next c v n 4 _ r 65); auto.
Qed.
Lemma wide_last : exists r, next c (at_idx (2 ^ 32 - 3)) = Val (Some (Ok (SOther r)), at_idx 4).
Proof.
  pose proof (wide_len m HM) as L.
  destruct (wrap_next_raw c v n (wide m) (2 ^ 32 - 3) 0xF0 4 1 0 [] 2 1 4) as [r [H [I _]]];
    try ((left; exact HO) || (rewrite ?L; cbn; lia) || reflexivity || (cbn; lia)).
  - apply wide_dropend, HM.
  - exists r. apply (other_next c v n (2 ^ 32 - 3) _ r 0xF0); auto.
Qed.
Lemma wide_loop k : forall i, i = 0 \/ i = 4 \/ i = 2 ^ 32 - 3 ->
  exists l s', length l = k /\ steps (next c) (at_idx i) l s' /\ Forall (fun o => exists r, o = Some (Ok (SOther r))) l.
Proof.
  induction k as [|k IH]; intros i HI.
  - exists [], (at_idx i). split; [reflexivity|]. split; [apply steps_nil|constructor].
  - destruct HI as [->|[->| ->]].
    + destruct wide_first as [r H]. destruct (IH (2 ^ 32 - 3)) as [l [s' [L [S F]]]]; [auto|].
      exists (Some (Ok (SOther r)) :: l), s'. split; [cbn; congruence|]. split; [eapply steps_cons; eassumption|constructor; eauto].
    + destruct wide_middle as [r H]. destruct (IH (2 ^ 32 - 3)) as [l [s' [L [S F]]]]; [auto|].
      exists (Some (Ok (SOther r)) :: l), s'. split; [cbn; congruence|]. split; [eapply steps_cons; eassumption|constructor; eauto].
    + destruct wide_last as [r H]. destruct (IH 4) as [l [s' [L [S F]]]]; [auto|].
      exists (Some (Ok (SOther r)) :: l), s'. split; [cbn; congruence|]. split; [eapply steps_cons; eassumption|constructor; eauto].
Qed.
End Wide.

(* strings of 2^32 + 10 bytes *)
Definition long (m : nat) : list N := [0xF0; 4; 0; 0] ++ repeat 65 m ++ [0; 0].
Lemma long_next c v n m : N.of_nat m + 2 = 2 ^ 32 + 10 -> 100 <= n ->
  exists r, next c {| smbios_version := v; smbios_len_ := n; idx := 0; buffer := long m |} =
    Val (Some (Ok (SOther r)), {| smbios_version := v; smbios_len_ := n; idx := 14; buffer := long m |}) /\ strings r = repeat 65 10.
Proof.
  intros HM HN.
  assert (L : len (long m) = 2 ^ 32 + 14) by (unfold long, len; rewrite !app_length, !repeat_length; cbn [length]; lia).
  assert (E : m = (10 + (m - 10))%nat) by lia.
  assert (X : 4 + (N.of_nat m + 1 + 1) mod 2 ^ 32 = 14) by lia.
  destruct (wrap_next_raw c v n (long m) 0 0xF0 4 0 0 (drop 4 (long m)) (N.of_nat m + 1) 4 14) as [r [H [I S]]].
  - right. rewrite X. split; [reflexivity|split; reflexivity].
  - cbn. lia.
  - lia.
  - reflexivity.
  - reflexivity.
  - lia.
  - lia.
  - change (drop 4 (long m)) with (repeat 65 m ++ 0 :: 0 :: []). apply nulnul_repeat.
  - rewrite X. reflexivity.
  - cbn. lia.
  - lia.
  - lia.
  - exists r. split; [apply (other_next c v n 0 _ r 0xF0); auto|]. rewrite S.
    change (drop 4 (long m)) with (repeat 65 m ++ [0; 0]). rewrite E, repeat_app, <- app_assoc. reflexivity.
Qed.

Lemma runs_longer {S A} (nx : S -> out (option A * S)) s l e : runs nx s l e ->
  forall k s', steps nx s k s' -> Forall (fun o => o <> None) k -> (length k <= length l)%nat.
Proof.
  induction 1 as [s s' H|s H|s H|s a s1 l e H R IH]; intros k t K F; destruct k as [|o k]; cbn [length]; try lia;
    inversion K as [|? ? ? ? ? X Y]; subst; inversion F as [|? ? P Q]; subst; rewrite H in X; try discriminate X.
  - injection X as <- <-. destruct (P eq_refl).
  - injection X as <- <-. pose proof (IH _ _ Y Q). lia.
Qed.

Lemma wide_endless c e : overflow_checks c = false -> 100 <= ep_smbios_len e ->
  exists b, all_bytes b /\ forall l en, ~ runs (next c) (structures e b) l en.
Proof.
  intros HO HN. exists (wide (N.to_nat (2 ^ 32 - 74))).
  assert (HM : N.of_nat (N.to_nat (2 ^ 32 - 74)) + 74 = 2 ^ 32) by (rewrite N2Nat.id; reflexivity).
  generalize dependent (N.to_nat (2 ^ 32 - 74)). intros m HM. split.
  - unfold wide. apply all_bytes_app. split; [repeat constructor|]. apply all_bytes_app. split; [repeat constructor|].
    apply all_bytes_app. split; [|repeat constructor]. clear. induction m; constructor; [reflexivity|assumption].
  - intros l en R. destruct (wide_loop c (ep_to_version e) (ep_smbios_len e) m HO HM HN (S (length l)) 0) as [k [s' [L [K F]]]]; [auto|].
    pose proof (runs_longer _ _ _ _ R k s' K) as X. specialize (X ltac:(eapply Forall_impl; [|exact F]; intros o [r ->]; discriminate)). lia.
Qed.

Lemma long_cut c e : 100 <= ep_smbios_len e -> exists b r s', all_bytes b /\ string_area (drop 4 b) /\
  next c (structures e b) = Val (Some (Ok (SOther r)), s') /\ ~ string_area (strings r) /\ idx s' = 14.
Proof.
  intros HN. exists (long (N.to_nat (2 ^ 32 + 8))).
  assert (HM : N.of_nat (N.to_nat (2 ^ 32 + 8)) + 2 = 2 ^ 32 + 10) by (rewrite N2Nat.id; reflexivity).
  generalize dependent (N.to_nat (2 ^ 32 + 8)). intros m HM.
  destruct (long_next c (ep_to_version e) (ep_smbios_len e) m HM HN) as [r [H S]].
  exists r. eexists. split; [|split; [|split; [exact H|split; [|reflexivity]]]].
  - unfold long. apply all_bytes_app. split; [repeat constructor|]. apply all_bytes_app. split; [|repeat constructor].
    clear. induction m; constructor; [reflexivity|assumption].
  - change (drop 4 (long m)) with (repeat 65 m ++ [0; 0]). split; [exists (repeat 65 m); reflexivity|].
    clear. induction m as [|m IH]; intros x y E.
    + cbn in E. destruct x as [|? [|? x]]; cbn in E; [congruence|discriminate|]. injection E as _ _ E. destruct x; discriminate.
    + destruct x as [|a x]; cbn in E; [discriminate|]. injection E as _ E. exact (IH x y E).
  - rewrite S. intros [[front F] _]. apply (f_equal (@rev N)) in F. rewrite rev_app_distr in F. discriminate F.
Qed.
