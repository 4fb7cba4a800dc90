From Coq Require Import ZArith Lia ZifyBool ZifyNat ZifyN.
From Verif Require Import Base G_Enums M_Raw M_Entry M_Iter M_Use.
From Verif Require Import Spec S_Entry S_Iter S_Safety S_Table S_Write S_Use.
From Verif Require Import L_Base L_Entry L_Iter L_Frame L_Safety L_Table L_Write.
Ltac Zify.zify_post_hook ::= Z.div_mod_to_equations.
Local Open Scope N_scope.

Lemma decodes_all c rs xs : Forall2 (fun r x => dispatch c r = Val x) rs xs -> decode_all c rs xs Finished.
Proof. induction 1; [constructor|]. constructor; assumption. Qed.

(* the structures of a table that an entry point announces *)
Lemma firmware_read_back c a ss ws rest e : firmware a ss ws rest ->
  ep_to_version e = announced_version a -> ep_smbios_len e = a_length a ->
  exists s', drains (next c) (structures e (table (map encoded ws) ++ rest)) (map Ok ss) s'.
Proof.
  intros [OK W L E A B S] EV EL.
  destruct (runs_announced c e (map encoded ws) rest (map Ok ss) Finished) as [en [R FE]].
  - apply Forall_map. eapply Forall_impl; [|exact W]. exact encoded_ok.
  - rewrite EV, EL. exact A.
  - apply all_bytes_app. split; [apply table_bytes, W|exact B].
  - exact S.
  - rewrite EV. apply decodes_all, shown_all; assumption.
  - destruct en as [s'| |]; try discriminate. exists s'. apply drains_runs. exact R.
Qed.

Lemma files_read_back c p a tail ss ws rest : firmware a ss ws rest ->
  len p mod 16 = 0 -> (forall o k, ~ anchor_at p o k) ->
  S_Entry.layout_size (a_kind a) <= (S_Entry.layout_size (a_kind a) + len tail) mod 256 ->
  exists s s', open_files (p ++ encode_entry a ++ tail) (table (map encoded ws) ++ rest) = Val (Ok s) /\
    drains (next c) s (map Ok ss) s'.
Proof.
  intros F HP NA HT.
  destruct (search_encoded p a tail (f_announcement _ _ _ _ F) HP NA HT) as [e [E [_ [E1 [E2 [_ [E3 _]]]]]]].
  destruct (firmware_read_back c a ss ws rest e F) as [s' D].
  - unfold ep_to_version, announced_version. rewrite E1, E2. reflexivity.
  - exact E3.
  - eexists _, s'. split; [|exact D]. unfold open_files. rewrite E. reflexivity.
Qed.

Lemma dump_read_back c p a gap ss ws rest : firmware a ss ws rest ->
  len p mod 16 = 0 -> (forall o k, ~ anchor_at p o k) ->
  S_Entry.layout_size (a_kind a) <=
    (S_Entry.layout_size (a_kind a) + len (gap ++ table (map encoded ws) ++ rest)) mod 256 ->
  a_address a = len (p ++ encode_entry a ++ gap) -> len (dump p a gap ws rest) < 2 ^ usize_bits c ->
  exists s s', open_dump c (dump p a gap ws rest) = Val (Ok s) /\ drains (next c) s (map Ok ss) s'.
Proof.
  intros F HP NA HT HA HL. unfold dump in *.
  destruct (search_encoded p a _ (f_announcement _ _ _ _ F) HP NA HT) as [e [E [_ [E1 [E2 [_ [E3 E4]]]]]]].
  destruct (firmware_read_back c a ss ws rest e F) as [s' D].
  - unfold ep_to_version, announced_version. rewrite E1, E2. reflexivity.
  - exact E3.
  - eexists _, s'. split; [|exact D]. unfold open_dump. rewrite E. cbn [rbind]. rewrite E4, HA.
    unfold cast. rewrite N.mod_small.
    2:{ eapply N.le_lt_trans; [|exact HL]. rewrite !len_app. lia. }
    unfold slice_index_from, slice_get_from.
    replace (p ++ encode_entry a ++ gap ++ table (map encoded ws) ++ rest)
      with ((p ++ encode_entry a ++ gap) ++ table (map encoded ws) ++ rest) by (rewrite <- !app_assoc; reflexivity).
    set (front := p ++ encode_entry a ++ gap). rewrite len_app.
    destruct (N.leb_spec (len front) (len front + len (table (map encoded ws) ++ rest))); [|lia].
    rewrite drop_app_exact by reflexivity. reflexivity.
Qed.

Lemma well_formed_order items :
  map Ok (well_formed_only items) = filter (fun i : res Structure => match i with Ok _ => true | Err _ => false end) items.
Proof. induction items as [|[s|e] l IH]; [reflexivity| |]; cbn; rewrite IH; reflexivity. Qed.
Lemma well_formed_all ss : well_formed_only (map Ok ss) = ss.
Proof. induction ss as [|s l IH]; [reflexivity|]. cbn. f_equal. exact IH. Qed.
Lemma well_formed_in items s : In s (well_formed_only items) <-> In (Ok s) items.
Proof.
  induction items as [|[x|e] l IH]; cbn; [tauto| |].
  - rewrite IH. split; intros [H|H]; auto; [left; congruence|left; congruence].
  - rewrite IH. split; [auto|]. intros [H|H]; [discriminate|exact H].
Qed.

(* ------------------------------------------------------------------ opening *)

Lemma open_files_cases buf dmi :
  (exists e, search buf = Val (Err e) /\ open_files buf dmi = Val (Err e)) \/
  (exists e, search buf = Val (Ok e) /\ open_files buf dmi = Val (Ok (structures e dmi))).
Proof.
  destruct (search_total buf) as [[e|e] E]; unfold open_files; rewrite E; cbn; eauto.
Qed.

Lemma address_fits b e : all_bytes b -> search b = Val (Ok e) -> ep_smbios_address e < 2 ^ 64.
Proof.
  intros HB E. destruct (search_accessors b e E) as [o [_ [_ [_ [_ [_ [H _]]]]]]]. rewrite H. clear H.
  assert (Q : forall off w, w <= 8 -> little (take w (drop off b)) < 2 ^ 64).
  { intros off w L. change (little (take w (drop off b))) with (le (take w (drop off b))).
    assert (B : all_bytes (take w (drop off b))) by (apply all_bytes_take, all_bytes_drop, HB).
    pose proof (le_bound _ B) as B1. eapply N.lt_le_trans; [exact B1|].
    change (2 ^ 64) with (256 ^ 8). apply N.pow_le_mono_r; [lia|]. rewrite len_take. lia. }
  destruct (kind_of e); apply Q; lia.
Qed.

Lemma place_same c b e : all_bytes b -> search b = Val (Ok e) ->
  pointer_width c = W64 \/ ep_smbios_address e < 2 ^ 32 -> place c e = ep_smbios_address e.
Proof.
  intros HB E H. apply N.mod_small. pose proof (address_fits b e HB E). unfold usize_bits.
  destruct (pointer_width c); [destruct H as [H|H]; [discriminate H|exact H]|assumption].
Qed.
Lemma place_v2 c b e : all_bytes b -> search b = Val (Ok e) -> kind_of e = FmtV2 -> place c e = ep_smbios_address e.
Proof.
  intros HB E K. apply (place_same c b e HB E). right.
  destruct (search_accessors b e E) as [o [_ [_ [_ [_ [_ [H _]]]]]]]. rewrite H, K. clear H.
  match goal with |- little (take 4 ?l) < _ => assert (B : all_bytes (take 4 l)) by (apply all_bytes_take, all_bytes_drop, HB);
    change (little (take 4 l)) with (le (take 4 l)); pose proof (le_bound _ B) as B1; eapply N.lt_le_trans; [exact B1|] end.
  change (2 ^ 32) with (256 ^ 4). apply N.pow_le_mono_r; [lia|]. rewrite len_take. lia.
Qed.
Lemma open_dump_ok c b s :
  open_dump c b = Val (Ok s) <->
  exists e, search b = Val (Ok e) /\ place c e <= len b /\ s = structures e (drop (place c e) b).
Proof.
  unfold open_dump. destruct (search_total b) as [[e|e] E]; rewrite E; cbn [rbind].
  - change (cast (usize_bits c) (ep_smbios_address e)) with (place c e).
    unfold slice_index_from, slice_get_from. destruct (N.leb_spec (place c e) (len b)); cbn [obind].
    + split; [intros [= <-]; exists e; auto|]. intros [e' [[= <-] [_ ->]]]. reflexivity.
    + split; [discriminate|]. intros [e' [[= <-] [L _]]]. lia.
  - split; [discriminate|]. intros [e' [H _]]. discriminate H.
Qed.
Lemma open_dump_err c b x : open_dump c b = Val (Err x) <-> search b = Val (Err x).
Proof.
  unfold open_dump. destruct (search_total b) as [[e|e] E]; rewrite E; cbn [rbind].
  - split; [|discriminate]. unfold slice_index_from. destruct (slice_get_from _ _); cbn [obind]; discriminate.
  - split; congruence.
Qed.
Lemma open_dump_panic c b :
  open_dump c b = Panic <-> exists e, search b = Val (Ok e) /\ len b < place c e.
Proof.
  unfold open_dump. destruct (search_total b) as [[e|e] E]; rewrite E; cbn [rbind].
  - change (cast (usize_bits c) (ep_smbios_address e)) with (place c e).
    unfold slice_index_from, slice_get_from. destruct (N.leb_spec (place c e) (len b)); cbn [obind].
    + split; [discriminate|]. intros [e' [[= <-] L]]. lia.
    + split; [|reflexivity]. intros _. exists e. auto.
  - split; [discriminate|]. intros [e' [H _]]. discriminate H.
Qed.
Lemma open_dump_no_ub c b : open_dump c b <> UB.
Proof.
  unfold open_dump. destruct (search_total b) as [[e|e] E]; rewrite E; cbn [rbind]; [|discriminate].
  unfold slice_index_from. destruct (slice_get_from _ _); cbn [obind]; discriminate.
Qed.

(* ------------------------------------------------------------------- safety *)

Lemma next_limits c s x s' : sane s -> next c s = Val (Some x, s') ->
  buffer s' = buffer s /\ (smbios_len_ s' = smbios_len_ s \/ smbios_len_ s' < idx s' + 4).
Proof.
  intros HS H. pose proof (next_step c s HS) as T. rewrite H in T. inversion T; subst; cbn; try (split; [reflexivity|lia]).
  destruct ((3 <=? major (smbios_version s)) && is_end (info r)); cbn; split; try reflexivity; lia.
Qed.
Lemma reached_limits c s s1 : sane s -> reached c s s1 ->
  buffer s1 = buffer s /\ (smbios_len_ s1 = smbios_len_ s \/ smbios_len_ s1 < idx s1 + 4).
Proof.
  intros HS R. induction R as [|s1 x s2 R [IH1 IH2] H]; [auto|].
  pose proof (reached_sane c s s1 HS R) as S1.
  assert (L : idx s1 + 4 <= smbios_len_ s1).
  { pose proof (next_step c s1 S1) as T. rewrite H in T. inversion T; subst; assumption. }
  destruct (next_limits c s1 x s2 S1 H) as [E1 E2]. split; [congruence|]. lia.
Qed.

Lemma cuttable_safe c s : sane s -> smbios_len_ s <= len (buffer s) -> lengths_ok c s ->
  (forall s1 r, reached c s s1 -> here s1 r -> well_sized r) -> exists l s', drains (next c) s l s'.
Proof.
  intros HS HL HC HW. apply run_safe; [exact HS|]. intros s1 R.
  destruct (reached_limits c s s1 HS R) as [EB EL]. split; [|split; [|intros r; apply HW, R]].
  - intros [A [B|[l [B [C [D [F|[F _]]]]]]]]; rewrite ?EB in *; [lia|lia|].
    pose proof (HC s1 l R) as Q. rewrite EB in Q. specialize (Q A B). lia.
  - intros [A B]. rewrite EB in B. lia.
Qed.

Lemma dump_safe c b e : all_bytes b -> len b + 260 <= 2 ^ 32 -> search b = Val (Ok e) ->
  ep_smbios_address e + ep_smbios_len e <= len b ->
  let s := structures e (drop (ep_smbios_address e) b) in
  lengths_ok c s -> (forall s1 r, reached c s s1 -> here s1 r -> well_sized r) ->
  open_dump c b = Val (Ok s) /\ exists l s', drains (next c) s l s'.
Proof.
  intros HB HS E L s HC HW. split; [apply open_dump_ok; exists e; rewrite (place_same c b e HB E) by (right; lia); split; [exact E|split; [lia|reflexivity]]|].
  apply cuttable_safe; [| |exact HC|exact HW].
  - split; [apply all_bytes_drop, HB|]. cbn. rewrite len_drop. lia.
  - cbn. rewrite len_drop. lia.
Qed.

Lemma files_safe c buf dmi e : all_bytes dmi -> len dmi + 260 <= 2 ^ 32 -> search buf = Val (Ok e) ->
  ep_smbios_len e <= len dmi ->
  let s := structures e dmi in
  lengths_ok c s -> (forall s1 r, reached c s s1 -> here s1 r -> well_sized r) ->
  open_files buf dmi = Val (Ok s) /\ exists l s', drains (next c) s l s'.
Proof.
  intros HB HS E L s HC HW. split; [unfold open_files; rewrite E; reflexivity|].
  apply cuttable_safe; [|exact L|exact HC|exact HW]. split; [exact HB|]. cbn. lia.
Qed.
