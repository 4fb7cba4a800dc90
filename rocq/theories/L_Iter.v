(* Proofs about framing and iteration. *)
From Coq Require Import ZArith Lia ZifyBool ZifyNat ZifyN.
From Verif Require Import Base G_Enums M_Raw M_Entry M_Iter Spec S_Iter L_Base L_Entry L_Strings.
Local Open Scope N_scope.
Ltac Zify.zify_post_hook ::= Z.div_mod_to_equations.

(* -------------------------------------------------------------- find_nulnul *)

Lemma find_nulnul_from_some i l t : find_nulnul_from i l = Some t ->
  exists x y, l = x ++ [0; 0] ++ y /\ t = i + len x + 1 /\ string_area (x ++ [0; 0]).
Proof.
  revert i; induction l as [|a l IH]; intros i H; [discriminate|].
  destruct l as [|b l']; [discriminate|].
  cbn [find_nulnul_from] in H. destruct ((a =? 0) && (b =? 0)) eqn:E.
  - injection H as <-. assert (a = 0 /\ b = 0) as [-> ->] by lia.
    exists [], l'. repeat split; [lens; lia|exists []; reflexivity|].
    intros x y E2. destruct x as [|? [|? x]]; cbn in E2.
    + injection E2 as <-. reflexivity.
    + injection E2 as _ E2. discriminate.
    + injection E2 as _ _ E2. destruct x; discriminate.
  - destruct (IH _ H) as [x [y [E1 [-> [[front E2] E3]]]]].
    exists (a :: x), y. rewrite E1. cbn [app]. split; [reflexivity|]. split; [lens; lia|].
    split; [exists (a :: x); reflexivity|].
    intros x' y' E4. destruct x' as [|a' x'].
    + cbn [app] in E4. injection E4 as -> E4.
      exfalso. destruct x as [|b' x]; cbn [app] in E1, E4.
      * injection E1 as -> E1. cbn in E. discriminate.
      * injection E4 as -> E4. injection E1 as -> E1. cbn in E. discriminate.
    + cbn [app] in E4. injection E4 as _ E4. apply (E3 x' y'). exact E4.
Qed.

Lemma find_nulnul_from_none i l : find_nulnul_from i l = None <-> no_double_nul l.
Proof.
  revert i; induction l as [|a l IH]; intros i.
  { split; [|reflexivity]. intros _ x y H. destruct x; discriminate. }
  destruct l as [|b l'].
  { split; [|reflexivity]. intros _ x y H. destruct x as [|? x]; [discriminate|]. destruct x; discriminate. }
  cbn [find_nulnul_from]. destruct ((a =? 0) && (b =? 0)) eqn:E.
  - split; [discriminate|]. intros H. exfalso. assert (a = 0 /\ b = 0) as [-> ->] by lia.
    apply (H [] l'). reflexivity.
  - change (match l' with [] => _ | _ => _ end) with (find_nulnul_from (i + 1) (b :: l')).
    rewrite IH. split.
    + intros H x y E2. destruct x as [|x0 x].
      * cbn [app] in E2. injection E2 as -> -> _. cbn in E. discriminate.
      * cbn [app] in E2. injection E2 as _ E2. apply (H x y E2).
    + intros H x y E2. apply (H (a :: x) y). rewrite E2. reflexivity.
Qed.

Lemma find_nulnul_area a post : string_area a -> find_nulnul (a ++ post) = Some (len a - 1).
Proof.
  intros [[front ->] H]. unfold find_nulnul.
  destruct (find_nulnul_from 0 ((front ++ [0; 0]) ++ post)) as [t|] eqn:E.
  - apply find_nulnul_from_some in E. destruct E as [x [y [E [-> [_ A]]]]].
    assert (len x = len front) as Hl.
    { rewrite <- app_assoc in E.
      destruct (N.lt_trichotomy (len x) (len front)) as [L|[L|L]]; [|exact L|].
      - (* an earlier pair: its end is inside front ++ [0;0] *)
        exfalso.
        assert (E1 : front ++ [0; 0] = x ++ [0; 0] ++ take (len front - len x) y).
        { apply (f_equal (take (len front + 2))) in E.
          rewrite take_app_ge in E by lia. replace (len front + 2 - len front) with 2 in E by lia.
          change (take 2 ([0; 0] ++ post)) with [0; 0] in E. rewrite E.
          rewrite take_app_ge by lia. f_equal. rewrite take_app_ge by llia. f_equal. f_equal. llia. }
        pose proof (H _ _ E1) as E3. apply (f_equal len) in E3, E. lens. lia.
      - exfalso.
        assert (E1 : x ++ [0; 0] = front ++ [0; 0] ++ take (len x - len front) post).
        { apply (f_equal (take (len x + 2))) in E.
          rewrite (take_app_ge (len x + 2) x) in E by lia.
          replace (len x + 2 - len x) with 2 in E by lia.
          change (take 2 ([0; 0] ++ y)) with [0; 0] in E. rewrite <- E.
          rewrite take_app_ge by lia. f_equal. rewrite take_app_ge by llia. f_equal. f_equal. llia. }
        pose proof (A _ _ E1) as E3. apply (f_equal len) in E3, E. lens. lia. }
    f_equal. lens. lia.
  - exfalso. apply find_nulnul_from_none in E. apply (E front post). rewrite <- app_assoc. reflexivity.
Qed.

(* a list with at least four elements *)
Lemma four_bytes (l : list N) : 4 <= len l -> exists a b c d l', l = [a; b; c; d] ++ l'.
Proof.
  unfold len. intros H. destruct l as [|a [|b [|c [|d l']]]]; cbn [length] in H; try lia. exists a, b, c, d, l'. reflexivity.
Qed.

Lemma header_at (buf : list N) pos : pos + 4 <= len buf ->
  exists pre kind l h0 h1 post, buf = pre ++ [kind; l; h0; h1] ++ post /\ len pre = pos.
Proof.
  intros H. destruct (four_bytes (drop pos buf)) as [a [b [c [d [l' E]]]]]; [llia|].
  exists (take pos buf), a, b, c, d, l'. rewrite <- E, take_drop. split; [reflexivity|]. llia.
Qed.

(* ------------------------------------------------------------ one call *)

Lemma next_step c s : sane s -> step c s (next c s).
Proof.
  intros [Hb [Hs1 Hs2]]. unfold next, next_raw, size_of_header, u_add.
  destruct (N.ltb_spec (idx s + 4) (2 ^ 32)); [|lia]. cbn [obind].
  destruct (N.ltb_spec (smbios_len_ s) (idx s + 4)) as [H1|H1].
  { apply table_done, H1. }
  unfold slice_index_from, slice_get_from. destruct (N.leb_spec (idx s) (len (buffer s))) as [H2|H2].
  2:{ apply position_past_buffer; assumption. }
  cbn [obind]. destruct (N.ltb_spec (len (drop (idx s) (buffer s))) 4) as [H3|H3].
  { rewrite len_drop in H3. apply header_past_buffer; [assumption|lia]. }
  rewrite len_drop in H3.
  destruct (header_at (buffer s) (idx s)) as [pre [kind [l [h0 [h1 [post [EB EL]]]]]]]; [lia|].
  assert (ED : drop (idx s) (buffer s) = [kind; l; h0; h1] ++ post) by (rewrite EB; apply drop_app_exact; lia).
  rewrite ED.
  replace (at_ 0 1 ([kind; l; h0; h1] ++ post)) with kind by (symmetry; apply N.add_0_r).
  replace (at_ 1 1 ([kind; l; h0; h1] ++ post)) with l by (symmetry; apply N.add_0_r).
  replace (at_ 2 2 ([kind; l; h0; h1] ++ post)) with (h0 + 256 * h1)
    by (change (at_ 2 2 ([kind; l; h0; h1] ++ post)) with (h0 + 256 * (h1 + 256 * 0)); lia).
  assert (Hl : l < 256).
  { rewrite EB in Hb. apply all_bytes_app in Hb. destruct Hb as [_ Hb].
    inversion Hb as [|? ? _ Hb2]. inversion Hb2; assumption. }
  destruct (N.ltb_spec (idx s + l) (2 ^ 32)); [|lia]. cbn [obind].
  destruct (N.leb_spec (smbios_len_ s) (idx s + l)) as [H4|H4].
  { apply (length_past_table c s pre post kind l h0 h1); assumption. }
  destruct (N.leb_spec (idx s + l) (len (buffer s))) as [H5|H5].
  2:{ apply (length_past_buffer c s pre post kind l h0 h1); assumption. }
  cbn [obind]. destruct (find_nulnul (drop (idx s + l) (buffer s))) as [t|] eqn:EN.
  2:{ unfold find_nulnul in EN. apply find_nulnul_from_none in EN.
      apply (strings_not_terminated c s pre post kind l h0 h1); assumption. }
  unfold find_nulnul in EN. apply find_nulnul_from_some in EN.
  destruct EN as [x [y [EX [-> A]]]].
  assert (HX : len x + 2 + len y = len (buffer s) - (idx s + l)).
  { apply (f_equal len) in EX. lens. lia. }
  unfold slice_index, slice_get. destruct (N.leb_spec (idx s + 4) (idx s + l)) as [H6|H6].
  2:{ cbn [andb obind].
      apply (length_below_header c s pre post kind l h0 h1 x y); try assumption. lia. }
  destruct (N.leb_spec (idx s + l) (len (buffer s))); [|lia]. cbn [andb obind].
  unfold cast. rewrite (N.mod_small (0 + len x + 1 + 1)) by lia.
  destruct (N.ltb_spec (idx s + l + (0 + len x + 1 + 1)) (2 ^ 32)); [|lia]. cbn [obind].
  destruct (N.leb_spec (idx s + l) (idx s + l + (0 + len x + 1 + 1))); [|lia].
  destruct (N.leb_spec (idx s + l + (0 + len x + 1 + 1)) (len (buffer s))); [|lia]. cbn [andb obind].
  replace (idx s + l - (idx s + 4)) with (l - 4) by lia.
  replace (idx s + l + (0 + len x + 1 + 1) - (idx s + l)) with (len x + 2) by lia.
  assert (ES : take (len x + 2) (drop (idx s + l) (buffer s)) = x ++ [0; 0]).
  { rewrite EX, app_assoc. apply take_app_exact. llia. }
  rewrite ES.
  set (r := {| version := smbios_version s; info := InfoType_from kind; length_ := l;
               handle := h0 + 256 * h1; data := take (l - 4) (drop (idx s + 4) (buffer s));
               strings := x ++ [0; 0]; after := drop (idx s + l) (buffer s) |}).
  assert (HD : len (data r) = l - 4) by (subst r; cbn [data]; lens; lia).
  assert (F : framed (smbios_version s) (buffer s) (idx s) r).
  { exists pre, y, kind, h0, h1. subst r. cbn [length_ data strings info handle version after] in *.
    split; [|split; [exact EL|split; [lia|split; [exact A|]]]].
    - assert (D4 : drop (idx s + 4) (buffer s) = post).
      { rewrite EB. change (pre ++ [kind; l; h0; h1] ++ post) with (pre ++ ([kind; l; h0; h1] ++ post)).
        rewrite drop_app_ge by lia. rewrite drop_app_exact; [reflexivity|]. llia. }
      rewrite <- app_assoc, <- EX.
      replace (drop (idx s + l) (buffer s)) with (drop (l - 4) (drop (idx s + 4) (buffer s)))
        by (rewrite drop_drop; f_equal; lia).
      rewrite take_drop, D4. exact EB.
    - repeat split. rewrite EX, <- app_assoc. reflexivity. }
  assert (HE : idx s + l + (0 + len x + 1 + 1) = idx s + extent r).
  { unfold extent, r. cbn [length_ strings]. lens. lia. }
  rewrite HE. cbn [smbios_version idx buffer smbios_len_].
  change (is_end (info r)) with (is_end (InfoType_from kind)).
  destruct (dispatch c r) as [item| |] eqn:EDisp; cbn [obind].
  - assert (ST := decoded c s r item F H1 H4 EDisp).
    change (info r) with (InfoType_from kind) in ST. exact ST.
  - exact (decoder_panics c s r F H1 H4 EDisp).
  - exact (decoder_overreads c s r F H1 H4 EDisp).
Qed.

(* ------------------------------------------------- the table is a function *)

Lemma header_facts (buf pre post : list N) pos kind l h0 h1 :
  buf = pre ++ [kind; l; h0; h1] ++ post -> len pre = pos ->
  pos + 4 <= len buf /\ byte_at buf pos = Some kind /\ byte_at buf (pos + 1) = Some l /\
  byte_at buf (pos + 2) = Some h0 /\ byte_at buf (pos + 3) = Some h1 /\
  drop (pos + 4) buf = post.
Proof.
  intros -> <-. split; [llia|].
  assert (A : forall i, byte_at (pre ++ [kind; l; h0; h1] ++ post) (len pre + i) =
                        byte_at ([kind; l; h0; h1] ++ post) i).
  { intros i. rewrite <- (byte_at_drop _ (len pre) i). rewrite drop_app_exact by reflexivity. reflexivity. }
  split; [rewrite <- (N.add_0_r (len pre)), A; reflexivity|].
  split; [rewrite A; reflexivity|]. split; [rewrite A; reflexivity|]. split; [rewrite A; reflexivity|].
  rewrite drop_app_ge by lia. rewrite drop_app_exact; [reflexivity|]. llia.
Qed.

Lemma framed_facts v buf pos r : framed v buf pos r ->
  byte_at buf (pos + 1) = Some (length_ r) /\ 4 <= length_ r /\
  pos + extent r <= len buf /\ 2 <= len (strings r) /\
  data r = take (length_ r - 4) (drop (pos + 4) buf) /\
  string_area (strings r) /\ exists post, drop (pos + length_ r) buf = strings r ++ post.
Proof.
  intros [pre [post [kind [h0 [h1 [E [L [LL [A [I [H [V AF]]]]]]]]]]]].
  destruct (header_facts _ _ _ _ _ _ _ _ E L) as [H1 [_ [H2 [_ [_ H5]]]]].
  assert (2 <= len (strings r)) by (destruct A as [[front ->] _]; llia).
  split; [exact H2|]. split; [lia|].
  split; [unfold extent; apply (f_equal len) in E; lens; lia|].
  split; [assumption|]. split; [rewrite H5; symmetry; apply take_app_exact; lia|]. split; [exact A|].
  exists post.
  replace (pos + length_ r) with ((length_ r - 4) + (pos + 4)) by lia.
  rewrite <- drop_drop, H5. apply drop_app_exact. lia.
Qed.

Lemma framed_fun v buf pos r1 r2 : framed v buf pos r1 -> framed v buf pos r2 -> r1 = r2.
Proof.
  intros F1 F2.
  destruct (framed_facts _ _ _ _ F1) as [L1 [_ [_ [_ [D1 [S1 [p1 E1]]]]]]].
  destruct (framed_facts _ _ _ _ F2) as [L2 [_ [_ [_ [D2 [S2 [p2 E2]]]]]]].
  assert (LE : length_ r1 = length_ r2) by congruence.
  assert (DE : data r1 = data r2) by congruence.
  assert (SL : len (strings r1) = len (strings r2)).
  { pose proof (find_nulnul_area _ p1 S1) as N1. pose proof (find_nulnul_area _ p2 S2) as N2.
    rewrite <- E1 in N1. rewrite <- E2, <- LE in N2. rewrite N1 in N2. injection N2 as N2.
    destruct S1 as [[f1 S1] _], S2 as [[f2 S2] _]. rewrite S1, S2 in *. lens. lia. }
  assert (SE : strings r1 = strings r2).
  { rewrite <- (take_app_exact (len (strings r1)) (strings r1) p1) by reflexivity.
    rewrite <- (take_app_exact (len (strings r1)) (strings r2) p2) by assumption.
    rewrite <- E1, <- E2, LE. reflexivity. }
  destruct F1 as [pre1 [po1 [k1 [a1 [b1 [X1 [Y1 [_ [_ [I1 [H1 [V1 A1]]]]]]]]]]]].
  destruct F2 as [pre2 [po2 [k2 [a2 [b2 [X2 [Y2 [_ [_ [I2 [H2 [V2 A2]]]]]]]]]]]].
  destruct (header_facts _ _ _ _ _ _ _ _ X1 Y1) as [_ [K1 [_ [G1 [J1 R1]]]]].
  destruct (header_facts _ _ _ _ _ _ _ _ X2 Y2) as [_ [K2 [_ [G2 [J2 R2]]]]].
  assert (k1 = k2) by congruence. assert (a1 = a2) by congruence. assert (b1 = b2) by congruence.
  assert (AE : after r1 = after r2).
  { rewrite A1, A2. rewrite R1 in R2. apply (f_equal (drop (len (data r1)))) in R2.
    rewrite DE in R2 at 3. rewrite DE in R2 at 1. rewrite !drop_app_exact in R2 by (reflexivity || congruence).
    exact R2. }
  destruct r1 as [v1 i1 l1 hh1 d1 s1 f1], r2 as [v2 i2 l2 hh2 d2 s2 f2]; cbn [version info length_ handle data strings after] in *.
  assert (i1 = i2) by congruence. assert (hh1 = hh2) by congruence. assert (v1 = v2) by congruence. congruence.
Qed.

Lemma step_fun c s x y : step c s x -> step c s y -> x = y.
Proof.
  assert (NA : forall r post, string_area (strings r) -> drop (idx s + length_ r) (buffer s) = strings r ++ post ->
               ~ no_double_nul (drop (idx s + length_ r) (buffer s))).
  { intros r post [[f E] _] E2 N. rewrite E2, E, <- app_assoc in N. exact (N _ _ eq_refl). }
  intros S1 S2.
  destruct S1, S2;
  repeat match goal with
  | H : buffer s = ?pre ++ [_; _; _; _] ++ ?post, L : len ?pre = idx s |- _ =>
      destruct (header_facts _ _ _ _ _ _ _ _ H L) as (? & _ & ? & _ & _ & _); clear H
  | H : framed _ _ _ ?r |- _ =>
      lazymatch goal with
      | _ : byte_at (buffer s) (idx s + 1) = Some (length_ r) |- _ => fail
      | _ => destruct (framed_facts _ _ _ _ H) as (? & ? & ? & ? & _ & ? & [? ?])
      end
  end;
  repeat match goal with
  | H1 : byte_at ?b ?i = Some ?u, H2 : byte_at ?b ?i = Some ?v |- _ =>
      assert (u = v) by congruence; clear H2
  end; unfold extent in *; subst; try lia; try reflexivity;
  try match goal with
  | H1 : framed _ _ _ ?a, H2 : framed _ _ _ ?b |- _ =>
      pose proof (framed_fun _ _ _ _ _ H1 H2); subst; try congruence
  end.
  all: try (exfalso; match goal with
  | N : no_double_nul ?d, E : ?d = ?x ++ [0; 0] ++ ?y |- _ => exact (N _ _ E)
  | N : no_double_nul ?d, E : ?d = strings ?r ++ ?y, A : string_area _ |- _ => exact (NA _ _ A E N)
  end).
Qed.

Lemma next_iff c s x : sane s -> (next c s = x <-> step c s x).
Proof.
  intros H. split; [intros <-; apply next_step, H|]. intros S.
  apply (step_fun c s); [apply next_step, H|exact S].
Qed.

(* ------------------------------------------------------------- consequences *)

Lemma next_framing c s item s' : sane s -> next c s = Val (Some item, s') ->
  idx s + 4 <= smbios_len_ s /\
  ((exists e, item = Err e /\ (e = UnterminatedStrings (idx s) \/ exists l, e = BadSize (idx s) l) /\ s' = stopped_at (idx s) s) \/
   (exists r, framed (smbios_version s) (buffer s) (idx s) r /\ idx s + length_ r < smbios_len_ s /\
              dispatch c r = Val item /\ idx s' = idx s + extent r /\
              (s' = moved_to (idx s + extent r) s \/
               (3 <= major (smbios_version s) /\ is_end (info r) = true /\ s' = stopped_at (idx s + extent r) s)))).
Proof.
  intros HS H. apply (next_iff c s _ HS) in H. inversion H; subst; (split; [assumption|]).
  - left. eexists. split; [reflexivity|]. split; [right; eauto|reflexivity].
  - left. eexists. split; [reflexivity|]. split; [left; reflexivity|reflexivity].
  - right. exists r. repeat split; auto.
    + destruct (_ && _); reflexivity.
    + destruct (N.leb_spec 3 (major (smbios_version s))); destruct (is_end (info r)); cbn [andb]; auto.
Qed.

Lemma sane_stopped p s : sane s -> p + 260 <= 2 ^ 32 -> sane (stopped_at p s).
Proof. intros [A [B C]] H. repeat split; assumption. Qed.
Lemma sane_moved p s : sane s -> p + 260 <= 2 ^ 32 -> sane (moved_to p s).
Proof. intros [A [B C]] H. repeat split; assumption. Qed.

Lemma framed_end s r : framed (smbios_version s) (buffer s) (idx s) r -> sane s ->
  idx s + extent r + 260 <= 2 ^ 32 /\ 6 <= extent r /\ idx s + extent r <= len (buffer s).
Proof.
  intros F [_ [_ S]]. destruct (framed_facts _ _ _ _ F) as [_ [H4 [HE [H2 _]]]]. unfold extent in *. lia.
Qed.

Lemma next_sane c s item s' : sane s -> next c s = Val (item, s') -> sane s' /\ buffer s' = buffer s.
Proof.
  intros HS H. destruct item as [item|].
  - destruct (next_framing c s item s' HS H) as [_ [[e [_ [_ ->]]]|[r [F [_ [_ [_ M]]]]]]].
    + split; [|reflexivity]. apply sane_stopped; [assumption|]. apply HS.
    + destruct (framed_end _ _ F HS) as [HE _].
      destruct M as [->|[_ [_ ->]]]; (split; [|reflexivity]); [apply sane_moved|apply sane_stopped]; assumption.
  - apply (next_iff c s _ HS) in H. inversion H; subst. auto.
Qed.

Lemma stopped_none c s : sane s -> smbios_len_ s < idx s + 4 -> next c s = Val (None, s).
Proof. intros HS H. apply next_iff; [assumption|]. apply table_done, H. Qed.

Lemma next_none c s s' : sane s -> next c s = Val (None, s') -> s' = s /\ smbios_len_ s < idx s + 4.
Proof. intros HS H. apply (next_iff c s _ HS) in H. inversion H; subst. auto. Qed.

(* termination *)
Definition remaining (s : Structures) : N := smbios_len_ s - idx s.

Lemma runs_bound c n : forall s, sane s -> (N.to_nat (remaining s) < n)%nat ->
  exists l e, runs (next c) s l e /\ (l = [] \/ 6 * (len l - 1) + 4 <= remaining s).
Proof.
  induction n as [|n IH]; intros s HS Hn; [lia|].
  destruct (next c s) as [[[item|] s']| |] eqn:E.
  - destruct (next_framing c s item s' HS E) as [H4 [[e [_ [_ ->]]]|[r [F [HL [_ [_ M]]]]]]].
    + exists [item], (Exhausted (stopped_at (idx s) s)). split.
      * econstructor; [exact E|]. constructor. apply stopped_none; [|cbn; lia].
        apply sane_stopped; [assumption|apply HS].
      * right. unfold remaining. lens. lia.
    + destruct (framed_end _ _ F HS) as [HE [H6 _]]. destruct (next_sane c s _ _ HS E) as [HS' _].
      destruct (IH s' HS') as [l [e [R B]]].
      { unfold remaining in *. destruct M as [->|[_ [_ ->]]]; cbn [smbios_len_ idx moved_to stopped_at]; lia. }
      exists (item :: l), e. split; [econstructor; eassumption|]. right. lens.
      destruct B as [->|B]; [unfold remaining in *; lens; lia|].
      unfold remaining in *. destruct M as [->|[_ [_ ->]]]; cbn [smbios_len_ idx moved_to stopped_at] in B; lia.
  - exists [], (Exhausted s'). split; [constructor; assumption|auto].
  - exists [], Panicked. split; [constructor; assumption|auto].
  - exists [], Undefined. split; [constructor; assumption|auto].
Qed.

Lemma runs_exists c s : sane s ->
  exists l e, runs (next c) s l e /\ (l = [] \/ 6 * (len l - 1) + 4 <= smbios_len_ s - idx s).
Proof. intros HS. apply (runs_bound c (S (N.to_nat (remaining s)))); [assumption|lia]. Qed.

(* ------------------------------------------------------------ encoded tables *)

Lemma split_nul (u : text) w x y : ~ In 0 u -> u ++ 0 :: w = x ++ [0; 0] ++ y ->
  (x = u /\ w = 0 :: y) \/ exists x', x = u ++ 0 :: x' /\ w = x' ++ [0; 0] ++ y.
Proof.
  revert x; induction u as [|a u IH]; intros x NI E.
  - destruct x as [|b x]; cbn [app] in E.
    + injection E as E. left. auto.
    + injection E as <- E. right. exists x. auto.
  - destruct x as [|b x]; cbn [app] in E.
    + injection E as -> _. exfalso. apply NI. left. reflexivity.
    + injection E as <- E. destruct (IH x) as [[-> ->]|[x' [-> ->]]].
      * intros H. apply NI. right. exact H.
      * exact E.
      * left. auto.
      * right. exists x'. auto.
Qed.

Lemma terminated_area ss : ss <> [] -> Forall (fun t => t <> [] /\ ~ In 0 t) ss -> string_area (terminated ss ++ [0]).
Proof.
  intros NE F. induction F as [|s ss [G1 G2] F IH]; [congruence|]. clear NE.
  destruct ss as [|s2 ss].
  - split.
    + exists s. unfold terminated. cbn [map concat]. rewrite app_nil_r, <- app_assoc. reflexivity.
    + intros x y E. rewrite terminated_cons in E. cbn [terminated map concat] in E.
      rewrite <- app_assoc in E. cbn [app] in E.
      destruct (split_nul s [0] x y G2 E) as [[_ E2]|[x' [_ E2]]].
      * congruence.
      * exfalso. apply (f_equal len) in E2. lens. lia.
  - destruct IH as [[front IH1] IH2]; [discriminate|]. split.
    + exists (s ++ 0 :: front). rewrite terminated_cons, <- app_assoc. cbn [app]. rewrite IH1, <- app_assoc.
      reflexivity.
    + intros x y E. rewrite terminated_cons, <- app_assoc in E. cbn [app] in E.
      destruct (split_nul s _ x y G2 E) as [[_ E2]|[x' [_ E2]]].
      * exfalso. rewrite terminated_cons in E2. inversion F as [|? ? [N1 N2] _]; subst.
        destruct s2 as [|b s2]; [congruence|]. cbn [app] in E2. injection E2 as -> _.
        apply N2. left. reflexivity.
      * apply (IH2 x' y E2).
Qed.

Lemma encode_strings_area ss : Forall (fun t => t <> [] /\ ~ In 0 t) ss -> string_area (encode_strings ss).
Proof.
  intros F. destruct ss as [|s ss].
  - split; [exists []; reflexivity|]. intros x y E. apply (f_equal len) in E. cbn [encode_strings] in E.
    lens. apply len_0. lia.
  - apply terminated_area; [discriminate|assumption].
Qed.

Lemma framed_encode v front s rest : encodable_ok s ->
  framed v (front ++ encode s ++ rest) (len front) (raw_of v s rest).
Proof.
  intros [H1 [H2 [H3 H4]]].
  exists front, rest, (e_type s), (e_handle s mod 256), (e_handle s / 256).
  cbn [raw_of length_ data strings info handle version after].
  split; [unfold encode; rewrite <- !app_assoc; reflexivity|].
  split; [reflexivity|]. split; [reflexivity|]. split; [apply encode_strings_area, H4|].
  split; [reflexivity|]. split; [lia|]. split; reflexivity.
Qed.

Lemma InfoType_End_iff k : is_end (InfoType_from k) = (k =? 127).
Proof.
  unfold InfoType_from.
  repeat match goal with |- context[if ?a =? ?b then _ else _] => destruct (N.eqb_spec a b); subst; [reflexivity|] end.
  reflexivity.
Qed.

Lemma extent_encode v s rest : extent (raw_of v s rest) = len (encode s).
Proof. unfold extent, encode. cbn [raw_of length_ strings]. lens. lia. Qed.

Lemma len_encode s : 4 + len (e_body s) < len (encode s).
Proof.
  unfold encode. lens. assert (0 < len (encode_strings (e_strings s))); [|lia].
  destruct (e_strings s); [cbn; lia|]. cbn [encode_strings]. lens. lia.
Qed.

Lemma table_cons s ss : table (s :: ss) = encode s ++ table ss.
Proof. reflexivity. Qed.

(* iteration over an encoded table, from any position *)
Lemma runs_table c v rest : forall ss front n,
  Forall encodable_ok ss -> n = len front + len (table ss) ->
  let s := {| smbios_version := v; smbios_len_ := n; idx := len front; buffer := front ++ table ss ++ rest |} in
  sane s ->
  forall items, Forall2 (fun r x => dispatch c r = Val x) (shown v ss rest) items ->
  exists s', drains (next c) s items s' /\ next c s' = Val (None, s').
Proof.
  induction ss as [|e ss IH]; intros front n F Hn s HS items FI.
  - inversion FI; subst. exists s. assert (next c s = Val (None, s)) by (apply stopped_none; [assumption|cbn; lia]).
    split; [constructor|]; assumption.
  - inversion F as [|? ? He F']; subst.
    cbn [shown] in FI. inversion FI as [|r x l l' Hx FI']; subst. clear FI.
    set (r := raw_of v e (table ss ++ rest)) in *.
    assert (FR : framed v (buffer s) (idx s) r).
    { subst s r. cbn [buffer idx]. rewrite table_cons, <- app_assoc. apply framed_encode, He. }
    pose proof (len_encode e) as LE.
    assert (HN : next c s = Val (Some x, if (3 <=? major v) && is_end (info r)
                     then stopped_at (idx s + extent r) s else moved_to (idx s + extent r) s)).
    { apply next_iff; [assumption|]. apply (decoded c s r x FR); auto; subst s r;
        cbn [idx smbios_len_ raw_of length_]; rewrite ?table_cons; lens; lia. }
    assert (HE : extent r = len (encode e)) by apply extent_encode.
    assert (HI : is_end (info r) = (e_type e =? 127)) by apply InfoType_End_iff.
    rewrite HI in HN.
    assert (HS' : idx s + extent r + 260 <= 2 ^ 32) by (apply (framed_end s r FR HS)).
    destruct ((3 <=? major v) && (e_type e =? 127)).
    + inversion FI'; subst. exists (stopped_at (idx s + extent r) s).
      assert (HZ : next c (stopped_at (idx s + extent r) s) = Val (None, stopped_at (idx s + extent r) s)).
      { apply stopped_none; [apply sane_stopped; assumption|cbn; lia]. }
      split; [|exact HZ]. econstructor; [exact HN|]. constructor. exact HZ.
    + destruct (IH (front ++ encode e) (len front + len (table (e :: ss)))) with (items := l') as [s' [D Z]]; auto.
      * rewrite table_cons. lens. lia.
      * replace {| smbios_version := v; smbios_len_ := len front + len (table (e :: ss));
            idx := len (front ++ encode e); buffer := (front ++ encode e) ++ table ss ++ rest |}
          with (moved_to (idx s + extent r) s); [apply sane_moved; assumption|].
        unfold moved_to, s. cbn [smbios_version smbios_len_ idx buffer]. rewrite HE, len_app, table_cons, <- !app_assoc.
        reflexivity.
      * exists s'. split; [|exact Z]. econstructor; [exact HN|].
        replace (moved_to (idx s + extent r) s) with
           {| smbios_version := v; smbios_len_ := len front + len (table (e :: ss));
              idx := len (front ++ encode e); buffer := (front ++ encode e) ++ table ss ++ rest |}; [exact D|].
        unfold moved_to, s. cbn [smbios_version smbios_len_ idx buffer]. rewrite HE, len_app, table_cons, <- !app_assoc.
        reflexivity.
Qed.

Lemma drains_table c e ss rest items :
  Forall encodable_ok ss -> ep_smbios_len e = len (table ss) ->
  all_bytes (table ss ++ rest) -> len (table ss ++ rest) + 260 <= 2 ^ 32 ->
  Forall2 (fun r x => dispatch c r = Val x) (shown (ep_to_version e) ss rest) items ->
  exists s', drains (next c) (structures e (table ss ++ rest)) items s' /\ next c s' = Val (None, s').
Proof.
  intros F HL HB HS FI. apply (runs_table c (ep_to_version e) rest ss [] (ep_smbios_len e)); auto.
  split; [exact HB|]. split; [cbn; lia|exact HS].
Qed.
