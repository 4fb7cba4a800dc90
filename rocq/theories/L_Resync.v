(* Lemmas for C96: reading on after damage. *)
From Coq Require Import ZArith Lia ZifyBool ZifyNat ZifyN.
From Verif Require Import Base G_Enums M_Raw M_Iter Spec S_Iter L_Base L_Iter L_After L_Frame S_Local L_Local S_Resync.
Local Open Scope N_scope.

Lemma carries_app v a b : carries_on v (a ++ b) <-> carries_on v a /\ carries_on v b.
Proof.
  unfold carries_on, goes_on. split.
  - intros [G E]. split; (split; [intros V r I; apply (G V)|intros e I; apply E]); apply in_or_app; auto.
  - intros [[G E] [G' E']]. split; [intros V r I|intros e I]; apply in_app_or in I as [I|I]; auto.
Qed.

(* an iterator that carried on is announced with the same length and version *)
Lemma carried c s l s' : reaches (next c) s l s' -> sane s -> carries_on (smbios_version s) l ->
  smbios_len_ s' = smbios_len_ s /\ smbios_version s' = smbios_version s /\ buffer s' = buffer s /\ sane s'.
Proof.
  induction 1 as [s|s a s1 l s' E R IH]; intros HS HC; [auto|].
  apply (carries_app _ [a] l) in HC. destruct HC as [[G NE] HC].
  pose proof (proj1 (next_sane c _ _ _ HS E)) as HS1.
  assert (ES : exists r, s1 = moved_to (idx s + extent r) s).
  { destruct (next_item c s a s1 HS E) as [[e [-> [FE _]]]|[r [_ [D ES]]]]; [destruct (NE e (or_introl eq_refl) FE)|].
    exists r. rewrite ES. destruct (N.leb_spec 3 (major (smbios_version s))) as [H3|H3]; [|reflexivity].
    destruct (is_end (info r)) eqn:EE; [|reflexivity]. exfalso.
    assert (IE : info r = InfoType_End) by (destruct (info r); try discriminate EE; reflexivity).
    rewrite (dispatch_end c r IE) in D. injection D as <-. apply (G H3 r); [left; reflexivity|exact IE]. }
  destruct ES as [r ->]. destruct (IH HS1 HC) as (A & B & C & D). auto.
Qed.

Lemma record_of s : s = {| smbios_version := smbios_version s; smbios_len_ := smbios_len_ s; idx := idx s; buffer := buffer s |}.
Proof. destruct s. reflexivity. Qed.

Lemma same_place c v n pre x x' post l s1 l' t1 l2 en :
  let s := start v n (pre ++ x ++ post) in
  let t := start v n (pre ++ x' ++ post) in
  sane s -> sane t -> len x = len x' ->
  reaches (next c) s l s1 -> carries_on v l -> reaches (next c) t l' t1 -> carries_on v l' ->
  idx s1 = idx t1 -> len (pre ++ x) <= idx s1 ->
  runs (next c) s1 l2 en -> exists en', runs (next c) t1 l2 en' /\ seen_ending en' = seen_ending en.
Proof.
  intros s t HS HT HX R C R' C' EI LI R2.
  destruct (carried c s l s1 R HS C) as (A1 & A2 & A3 & A4). destruct (carried c t l' t1 R' HT C') as (B1 & B2 & B3 & B4).
  rewrite (record_of s1), A1, A2, A3 in R2, A4. rewrite (record_of t1), B1, B2, B3, <- EI in B4 |- *. cbn [s t start smbios_version smbios_len_ buffer] in *.
  eapply (runs_same_rest c v n (idx s1) (pre ++ x ++ post) (pre ++ x' ++ post) (len (pre ++ x))); try eassumption.
  - rewrite !len_app. lia.
  - rewrite !len_app. lia.
  - rewrite !app_assoc, !drop_app_exact by (rewrite !len_app; lia). reflexivity.
Qed.

Lemma framed_at v pre k h0 h1 body area post : string_area area ->
  framed v (pre ++ ([k; 4 + len body; h0; h1] ++ body ++ area) ++ post) (len pre) (raw_at v k h0 h1 body area post).
Proof.
  intros A. exists pre, post, k, h0, h1. cbn [raw_at version info length_ handle data strings after]. rewrite <- !app_assoc.
  repeat (split; [reflexivity || assumption|]). reflexivity.
Qed.

(* the bytes of some structures turned into one structure *)
Lemma swallowed c v n pre x k h0 h1 body area post l0 s0 lx s1 l2 en :
  flat_memory c = false ->
  let s := start v n (pre ++ x ++ post) in
  let t := start v n (pre ++ ([k; 4 + len body; h0; h1] ++ body ++ area) ++ post) in
  sane s -> sane t -> len x = 4 + len body + len area -> string_area area ->
  len pre + 4 + len body < n -> (3 <= major v -> InfoType_from k <> InfoType_End) ->
  reaches (next c) s l0 s0 -> idx s0 = len pre -> reaches (next c) s0 lx s1 -> idx s1 = len (pre ++ x) ->
  carries_on v (l0 ++ lx) -> runs (next c) s1 l2 en ->
  exists l0', map seen l0' = map seen l0 /\
  match dispatch c (raw_at v k h0 h1 body area post) with
  | Val i => exists en', runs (next c) t (l0' ++ i :: l2) en' /\ seen_ending en' = seen_ending en
  | Panic => runs (next c) t l0' Panicked
  | UB => runs (next c) t l0' Undefined
  end.
Proof.
  intros HF s t HS HT LX A HN HE R0 E0 RX E1 HC R2.
  apply carries_app in HC as HC'. destruct HC' as [C0 CX].
  destruct (carried c s l0 s0 R0 HS C0) as (A1 & A2 & A3 & A4).
  assert (RS : reaches (next c) s (l0 ++ lx) s1).
  { clear - R0 RX. induction R0 as [|s a s1' l s' E R IH]; [exact RX|]. cbn [app]. eapply reaches_on; [exact E|]. apply IH, RX. }
  destruct (carried c s _ s1 RS HS HC) as (B1 & B2 & B3 & B4).
  set (x' := [k; 4 + len body; h0; h1] ++ body ++ area) in *.
  assert (LX' : len x = len x') by (subst x'; rewrite !len_app; change (len [k; 4 + len body; h0; h1]) with 4; lia).
  destruct (reaches_agree c (len pre) s l0 s0 HF R0 t HS HT) as [l0' [R0' [M ES]]].
  - unfold agree. cbn [s t start smbios_version idx smbios_len_ buffer]. rewrite !take_app_exact by reflexivity.
    rewrite !len_app. repeat split; try reflexivity; lia.
  - exact A1.
  - exact (proj1 C0).
  - lia.
  - exists l0'. split; [exact M|]. rewrite E0 in R0'. set (t0 := moved_to (len pre) t) in *.
    destruct (reaches_sane c t l0' t0 R0' HT) as [HT0 _].
    pose proof (framed_at v pre k h0 h1 body area post A) as F. fold x' in F. set (r := raw_at v k h0 h1 body area post) in *.
    assert (NT : next c t0 = let! i := dispatch c r in
      Val (Some i, if (3 <=? major v) && is_end (info r) then stopped_at (len pre + extent r) t0 else moved_to (len pre + extent r) t0)).
    { apply (next_framed c t0 r HT0); [exact F| |].
      - change (len pre + 4 <= n). lia.
      - change (len pre + (4 + len body) < n). lia. }
    destruct (dispatch c r) as [i| |]; cbn [obind] in NT.
    + assert (NE : (3 <=? major v) && is_end (info r) = false).
      { destruct (N.leb_spec 3 (major v)) as [H|H]; [|reflexivity]. specialize (HE H). change (InfoType_from k) with (info r) in HE.
        destruct (info r); try reflexivity. destruct HE. reflexivity. }
      rewrite NE in NT. pose proof (proj1 (next_sane c _ _ _ HT0 NT)) as HT1.
      assert (XE : len pre + extent r = idx s1).
      { rewrite E1, len_app, LX'. unfold extent, r, raw_at. cbn [length_ strings]. lia. }
      rewrite XE in *.
      assert (R3 : exists en', runs (next c) (moved_to (idx s1) t0) l2 en' /\ seen_ending en' = seen_ending en).
      { rewrite (record_of s1), B1, B2, B3 in R2, B4. cbn [s t0 t moved_to start smbios_version smbios_len_ buffer] in *.
        eapply (runs_same_rest c v n (idx s1) (pre ++ x ++ post) (pre ++ x' ++ post) (len (pre ++ x))); try eassumption.
        - rewrite !len_app. lia.
        - rewrite !len_app. lia.
        - lia.
        - rewrite !app_assoc, !drop_app_exact by (rewrite !len_app; lia). reflexivity. }
      destruct R3 as [en' [R3 EE]]. exists en'. split; [|exact EE].
      eapply reaches_runs; [exact R0'|]. eapply runs_some; [exact NT|exact R3].
    + rewrite <- (app_nil_r l0'). eapply reaches_runs; [exact R0'|]. apply runs_panic. exact NT.
    + rewrite <- (app_nil_r l0'). eapply reaches_runs; [exact R0'|]. apply runs_ub. exact NT.
Qed.

(* the end of a string area is one *)
Lemma area_end a j : string_area a -> j + 2 <= len a -> string_area (drop j a).
Proof.
  intros [[f ->] A] H. rewrite len_app in H. change (len [0; 0]) with 2 in H. split.
  - exists (drop j f). apply drop_app_le. lia.
  - intros x y E. apply (A (take j (f ++ [0; 0]) ++ x) y). rewrite <- app_assoc, <- E. symmetry. apply take_drop.
Qed.

(* a wrong length byte *)
Lemma wrong_length c v n pre k l l' h0 h1 rest post l0 s0 lx s1 l2 en :
  flat_memory c = false ->
  let s := start v n (pre ++ ([k; l; h0; h1] ++ rest) ++ post) in
  let t := start v n (pre ++ ([k; l'; h0; h1] ++ rest) ++ post) in
  sane s -> sane t -> 4 <= l' -> string_area (drop (l' - 4) rest) ->
  len pre + l' < n -> (3 <= major v -> InfoType_from k <> InfoType_End) ->
  reaches (next c) s l0 s0 -> idx s0 = len pre -> reaches (next c) s0 lx s1 -> idx s1 = len (pre ++ [k; l; h0; h1] ++ rest) ->
  carries_on v (l0 ++ lx) -> runs (next c) s1 l2 en ->
  exists l0', map seen l0' = map seen l0 /\
  match dispatch c (raw_at v k h0 h1 (take (l' - 4) rest) (drop (l' - 4) rest) post) with
  | Val i => exists en', runs (next c) t (l0' ++ i :: l2) en' /\ seen_ending en' = seen_ending en
  | Panic => runs (next c) t l0' Panicked
  | UB => runs (next c) t l0' Undefined
  end.
Proof.
  intros HF s t HS HT L4 A HN HE R0 E0 RX E1 HC R2.
  assert (LR : l' - 4 <= len rest).
  { destruct A as [[f A] _]. apply (f_equal len) in A. rewrite len_drop, len_app in A. change (len [0; 0]) with 2 in A. lia. }
  assert (LB : 4 + len (take (l' - 4) rest) = l') by (rewrite len_take; lia).
  pose proof (swallowed c v n pre ([k; l; h0; h1] ++ rest) k h0 h1 (take (l' - 4) rest) (drop (l' - 4) rest) post l0 s0 lx s1 l2 en HF) as H.
  rewrite take_drop, LB in H. apply H; try assumption.
  - rewrite len_app, <- (take_drop (l' - 4) rest) at 1. rewrite len_app. change (len [k; l; h0; h1]) with 4. lia.
  - lia.
Qed.

(* a structure whose length byte became larger but still ends inside its string area *)
Lemma longer_inside c v n pre k l' h0 h1 body area post l0 s0 i s1 l2 en :
  flat_memory c = false ->
  let s := start v n (pre ++ ([k; 4 + len body; h0; h1] ++ body ++ area) ++ post) in
  let t := start v n (pre ++ ([k; l'; h0; h1] ++ body ++ area) ++ post) in
  sane s -> sane t -> string_area area -> 4 + len body <= l' -> l' + 2 <= 4 + len body + len area ->
  len pre + l' < n -> (3 <= major v -> InfoType_from k <> InfoType_End) ->
  reaches (next c) s l0 s0 -> idx s0 = len pre -> next c s0 = Val (Some i, s1) ->
  carries_on v (l0 ++ [i]) -> runs (next c) s1 l2 en ->
  exists l0', map seen l0' = map seen l0 /\
  match dispatch c (raw_at v k h0 h1 (body ++ take (l' - 4 - len body) area) (drop (l' - 4 - len body) area) post) with
  | Val i' => exists en', runs (next c) t (l0' ++ i' :: l2) en' /\ seen_ending en' = seen_ending en
  | Panic => runs (next c) t l0' Panicked
  | UB => runs (next c) t l0' Undefined
  end.
Proof.
  intros HF s t HS HT A LB LE HN HE R0 E0 N0 HC R2.
  apply carries_app in HC as HC'. destruct HC' as [C0 CX].
  destruct (carried c s l0 s0 R0 HS C0) as (A1 & A2 & A3 & A4).
  assert (ED : drop (l' - 4) (body ++ area) = drop (l' - 4 - len body) area) by (apply drop_app_ge; lia).
  assert (ET : take (l' - 4) (body ++ area) = body ++ take (l' - 4 - len body) area) by (apply take_app_ge; lia).
  rewrite <- ED, <- ET.
  apply (wrong_length c v n pre k (4 + len body) l' h0 h1 (body ++ area) post l0 s0 [i] s1 l2 en); try assumption.
  - lia.
  - rewrite ED. apply area_end; [exact A|lia].
  - eapply reaches_on; [exact N0|apply reaches_here].
  - destruct (next_item c s0 i s1 A4 N0) as [[e [-> [FE _]]]|[r [[F _] [D ES]]]].
    { destruct (proj2 CX e (or_introl eq_refl) FE). }
    rewrite A2, A3, E0 in F. pose proof (framed_fun _ _ _ _ _ F (framed_at v pre k h0 h1 body area post A)) as ER.
    assert (EX : idx s1 = idx s0 + extent r) by (rewrite ES; destruct (_ && _); reflexivity).
    rewrite EX, E0, ER. unfold extent, raw_at. cbn [length_ strings]. rewrite !len_app. change (len [k; 4 + len body; h0; h1]) with 4. lia.
Qed.
