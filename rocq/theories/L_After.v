(* Under the strict memory model nothing depends on the memory behind a structure. *)
From Coq Require Import ZArith Lia ZifyBool ZifyNat ZifyN.
From Verif Require Import Base G_Enums M_Raw M_Entry M_Bios M_System M_BaseBoard M_Enclosure
  M_Processor M_Cache M_PortConnector M_SystemSlots M_Strings M_GroupAssociations
  M_SystemEventLog M_PhysicalMemoryArray M_MemoryDevice M_Memory M_PortableBattery M_Iter
  Spec S_Iter L_Base L_Strings L_Iter.
Local Open Scope N_scope.

Lemma read_packed_bare c n r : flat_memory c = false -> read_packed c n (bare r) = read_packed c n r.
Proof. intros H. unfold read_packed. cbn [data bare]. rewrite H. reflexivity. Qed.

Lemma elements_bare c d a : 
  omap (option_map (fun x => (bare_elements (fst x), snd x))) (ContainedElements_new c d a) =
  omap (option_map (fun x => (bare_elements (fst x), snd x))) (ContainedElements_new c d []).
Proof.
  unfold ContainedElements_new. destruct (read_bytes 1 d) as [[count d1]|]; [|reflexivity].
  destruct (read_bytes 1 d1) as [[rl d2]|]; [|reflexivity].
  destruct (_ || _); [reflexivity|]. destruct (u_mul c 8 count rl) as [l| |]; [|reflexivity|reflexivity].
  cbn [obind]. destruct (slice_get d2 0 l); reflexivity.
Qed.

Lemma enclosure_bare c r :
  omap (rmap forget) (map_ok SEnclosure (Enclosure_try_from c (bare r))) =
  omap (rmap forget) (map_ok SEnclosure (Enclosure_try_from c r)).
Proof.
  unfold Enclosure_try_from.
  change (data (bare r)) with (data r). change (info (bare r)) with (info r). change (handle (bare r)) with (handle r).
  change (find_string (bare r)) with (find_string r). change (after (bare r)) with (@nil N).
  destruct (len (data r) <? 5); [reflexivity|]. cbv zeta.
  destruct (find_string r (at_ 0 1 _)); [|reflexivity]. cbn [rbind].
  destruct (find_string r (at_ 2 1 _)); [|reflexivity]. cbn [rbind].
  destruct (find_string r (at_ 3 1 _)); [|reflexivity]. cbn [rbind].
  destruct (find_string r (at_ 4 1 _)); [|reflexivity]. cbn [rbind].
  set (pc := oand_then (oand_then (oand_then _ _) _) _).
  destruct pc as [[v d]|]; [|reflexivity].
  pose proof (elements_bare c d (after r)) as E.
  destruct (ContainedElements_new c d (after r)) as [[[e1 r1]|]| |],
           (ContainedElements_new c d []) as [[[e2 r2]|]| |]; cbn [omap obind option_map fst snd] in E;
    try discriminate; try reflexivity.
  assert (EE : bare_elements e1 = bare_elements e2)
    by exact (f_equal (fun o : out (option (ContainedElements * list N)) =>
                match o with Val (Some (e, _)) => e | _ => e1 end) E).
  assert (r1 = r2) as <-
    by exact (f_equal (fun o : out (option (ContainedElements * list N)) =>
                match o with Val (Some (_, x)) => x | _ => r1 end) E).
  clear E. cbn [obind oand_then option_map fst].
  destruct (read_bytes 1 r1) as [[n d2]|]; cbn [rbind rmap].
  - destruct (find_string r n) as [t|er]; cbn [rmap rbind]; [|reflexivity].
    unfold map_ok, omap, obind, rmap, forget, option_map. cbn. rewrite EE. reflexivity.
  - unfold map_ok, omap, obind, rmap, forget, option_map. cbn. rewrite EE. reflexivity.
Qed.

Lemma dispatch_bare c r : flat_memory c = false ->
  omap (rmap forget) (dispatch c (bare r)) = omap (rmap forget) (dispatch c r).
Proof.
  intros HF. pose proof (fun n => read_packed_bare c n r HF) as RP.
  unfold dispatch. change (info (bare r)) with (info r).
  destruct (info r) eqn:EI; try reflexivity; try apply enclosure_bare.
  all: match goal with |- omap _ (map_ok _ (?f _ (bare _))) = _ => unfold f end; rewrite ?RP; try reflexivity.
  change (version (bare r)) with (version r). destruct (version_ge _ _).
  - destruct (read_packed c 18 r); reflexivity.
  - destruct (read_packed c 17 r); reflexivity.
Qed.

(* two structures that differ only in what lies behind them *)
Lemma dispatch_same c r1 r2 : flat_memory c = false -> bare r1 = bare r2 ->
  omap seen (dispatch c r1) = omap seen (dispatch c r2).
Proof.
  intros HF HB. transitivity (omap seen (dispatch c (bare r1))); [symmetry; apply (dispatch_bare c r1 HF)|].
  rewrite HB. apply (dispatch_bare c r2 HF).
Qed.

Lemma next_framed c s r : sane s -> framed (smbios_version s) (buffer s) (idx s) r ->
  idx s + 4 <= smbios_len_ s -> idx s + length_ r < smbios_len_ s ->
  next c s = let! x := dispatch c r in
    Val (Some x, if (3 <=? major (smbios_version s)) && is_end (info r)
                 then stopped_at (idx s + extent r) s else moved_to (idx s + extent r) s).
Proof.
  intros HS F H1 H2. apply next_iff; [assumption|]. destruct (dispatch c r) as [x| |] eqn:E; cbn [obind].
  - apply decoded; assumption.
  - apply (decoder_panics c s r); assumption.
  - apply (decoder_overreads c s r); assumption.
Qed.

Lemma next_table c v front e ss rest n :
  let s := {| smbios_version := v; smbios_len_ := n; idx := len front; buffer := front ++ table (e :: ss) ++ rest |} in
  encodable_ok e -> n = len front + len (table (e :: ss)) -> sane s ->
  next c s = let! x := dispatch c (raw_of v e (table ss ++ rest)) in
    Val (Some x, if (3 <=? major v) && (e_type e =? 127)
                 then stopped_at (len (front ++ encode e)) s
                 else {| smbios_version := v; smbios_len_ := n; idx := len (front ++ encode e);
                         buffer := (front ++ encode e) ++ table ss ++ rest |}).
Proof.
  intros s He Hn HS.
  set (r := raw_of v e (table ss ++ rest)) in *.
  assert (FR : framed v (buffer s) (idx s) r).
  { subst s r. cbn [buffer idx]. rewrite table_cons, <- app_assoc. apply framed_encode, He. }
  pose proof (len_encode e) as LE.
  rewrite (next_framed c s r HS FR); [|subst s r; cbn [idx smbios_len_ raw_of length_]; rewrite Hn, table_cons; lens; lia..].
  assert (HE : extent r = len (encode e)) by apply extent_encode.
  assert (HI : is_end (info r) = (e_type e =? 127)) by apply InfoType_End_iff.
  rewrite HI, HE.
  replace (idx s + len (encode e)) with (len (front ++ encode e)) by (subst s; cbn [idx]; apply len_app).
  replace (moved_to (len (front ++ encode e)) s) with
    {| smbios_version := v; smbios_len_ := n; idx := len (front ++ encode e);
       buffer := (front ++ encode e) ++ table ss ++ rest |}; [reflexivity|].
  unfold moved_to, s. cbn [smbios_version smbios_len_ buffer]. rewrite table_cons, <- !app_assoc. reflexivity.
Qed.

Lemma runs_none_inv {S A} (next : S -> out (option A * S)) s s' l e :
  next s = Val (None, s') -> runs next s l e -> l = [].
Proof. intros H R. inversion R; subst; congruence. Qed.
Lemma runs_none_end {S A} (next : S -> out (option A * S)) s s' l e :
  next s = Val (None, s') -> runs next s l e -> e = Exhausted s'.
Proof. intros H R. inversion R; subst; try congruence. Qed.

Lemma runs_same c v n : flat_memory c = false ->
  forall ss front rest1 rest2 l1 e1 l2 e2,
  let s1 := {| smbios_version := v; smbios_len_ := n; idx := len front; buffer := front ++ table ss ++ rest1 |} in
  let s2 := {| smbios_version := v; smbios_len_ := n; idx := len front; buffer := front ++ table ss ++ rest2 |} in
  Forall encodable_ok ss -> n = len front + len (table ss) -> sane s1 -> sane s2 ->
  runs (next c) s1 l1 e1 -> runs (next c) s2 l2 e2 ->
  map seen l1 = map seen l2 /\ seen_ending e1 = seen_ending e2.
Proof.
  intros HF ss. induction ss as [|e ss IH]; intros front rest1 rest2 l1 e1 l2 e2 s1 s2 F Hn HS1 HS2 R1 R2.
  - assert (N1 : next c s1 = Val (None, s1)) by (apply stopped_none; [assumption|cbn in *; lia]).
    assert (N2 : next c s2 = Val (None, s2)) by (apply stopped_none; [assumption|cbn in *; lia]).
    rewrite (runs_none_inv _ _ _ _ _ N1 R1), (runs_none_end _ _ _ _ _ N1 R1).
    rewrite (runs_none_inv _ _ _ _ _ N2 R2), (runs_none_end _ _ _ _ _ N2 R2). auto.
  - inversion F as [|? ? He F']; subst.
    pose proof (next_table c v front e ss rest1 _ He eq_refl HS1) as N1.
    pose proof (next_table c v front e ss rest2 _ He eq_refl HS2) as N2.
    assert (DS := dispatch_same c (raw_of v e (table ss ++ rest1)) (raw_of v e (table ss ++ rest2)) HF eq_refl).
    fold s1 in N1. fold s2 in N2.
    destruct (dispatch c (raw_of v e (table ss ++ rest1))) as [x1| |],
             (dispatch c (raw_of v e (table ss ++ rest2))) as [x2| |]; cbn [omap obind] in DS; try discriminate;
      cbn [obind] in N1, N2.
    + assert (HX : seen x1 = seen x2) by congruence. clear DS.
      inversion R1 as [| | |? y1 t1 k1 f1 M1 Q1]; subst; try congruence.
      inversion R2 as [| | |? y2 t2 k2 f2 M2 Q2]; subst; try congruence.
      fold s1 in M1, R1. fold s2 in M2, R2.
      rewrite N1 in M1. rewrite N2 in M2. injection M1 as <- M1. injection M2 as <- M2.
      pose proof (proj1 (next_sane c s1 _ _ HS1 N1)) as HT1. rewrite M1 in HT1.
      pose proof (proj1 (next_sane c s2 _ _ HS2 N2)) as HT2. rewrite M2 in HT2.
      cbn [map]. rewrite HX.
      destruct ((3 <=? major v) && (e_type e =? 127)).
      * assert (Z1 : next c t1 = Val (None, t1)) by (apply stopped_none; [assumption|subst t1; cbn; lia]).
        assert (Z2 : next c t2 = Val (None, t2)) by (apply stopped_none; [assumption|subst t2; cbn; lia]).
        rewrite (runs_none_inv _ _ _ _ _ Z1 Q1), (runs_none_end _ _ _ _ _ Z1 Q1).
        rewrite (runs_none_inv _ _ _ _ _ Z2 Q2), (runs_none_end _ _ _ _ _ Z2 Q2). subst t1 t2. auto.
      * subst t1 t2.
        edestruct (IH (front ++ encode e) rest1 rest2) as [A B];
          [exact F'| |exact HT1|exact HT2|exact Q1|exact Q2|].
        -- rewrite table_cons. lens. lia.
        -- rewrite A. auto.
    + inversion R1; subst; try congruence. inversion R2; subst; try congruence. auto.
    + inversion R1; subst; try congruence. inversion R2; subst; try congruence. auto.
Qed.

Lemma runs_structures_same c e ss rest1 rest2 l1 e1 l2 e2 : flat_memory c = false ->
  Forall encodable_ok ss -> ep_smbios_len e = len (table ss) ->
  all_bytes (table ss ++ rest1) -> len (table ss ++ rest1) + 260 <= 2 ^ 32 ->
  all_bytes (table ss ++ rest2) -> len (table ss ++ rest2) + 260 <= 2 ^ 32 ->
  runs (next c) (structures e (table ss ++ rest1)) l1 e1 ->
  runs (next c) (structures e (table ss ++ rest2)) l2 e2 ->
  map seen l1 = map seen l2 /\ seen_ending e1 = seen_ending e2.
Proof.
  intros HF F HL B1 S1 B2 S2 R1 R2.
  apply (runs_same c (ep_to_version e) (ep_smbios_len e) HF ss [] rest1 rest2 l1 e1 l2 e2); auto.
  - split; [exact B1|]. split; [cbn; lia|exact S1].
  - split; [exact B2|]. split; [cbn; lia|exact S2].
Qed.
