From Coq Require Import ZArith Lia ZifyBool ZifyNat ZifyN.
From Verif Require Import Base G_Enums M_Raw M_Entry M_Iter M_Endian Spec S_Endian L_Base L_Entry.
Local Open Scope N_scope.

Lemma be_rev l : be l = le (rev l).
Proof.
  unfold be. rewrite <- (rev_involutive l) at 1. generalize (rev l) as m. intros m.
  rewrite fold_left_rev_right || idtac.
  induction m as [|b m IH]; [reflexivity|]. cbn [rev le]. rewrite fold_left_app. cbn [fold_left]. rewrite IH. lia.
Qed.
Lemma field_one o p : o < len p -> field_on true o 1 p = at_ o 1 p.
Proof.
  intros H. unfold field_on, at_. rewrite be_rev.
  assert (L : len (take 1 (drop o p)) = 1) by (rewrite len_take, len_drop; lia).
  destruct (take 1 (drop o p)) as [|b [|b' t]]; unfold len in L; cbn [length] in L; try lia. reflexivity.
Qed.
Lemma field_reversed o w p : all_bytes p -> o + w <= len p ->
  reversed (N.to_nat w) (at_ o w p) (field_on true o w p).
Proof.
  intros A H. exists (take w (drop o p)). split.
  - assert (L : len (take w (drop o p)) = w) by (rewrite len_take, len_drop; lia). unfold len in L. lia.
  - split; [now apply all_bytes_take, all_bytes_drop|]. split; [reflexivity|]. cbn [field_on]. apply be_rev.
Qed.

Lemma little_machine : (forall b, search_on false b = search b) /\ (forall c s, next_raw_on false c s = next_raw c s).
Proof. split; reflexivity. Qed.

Lemma v2_mirrored p : all_bytes p -> len p = 31 -> mirrored (V2 (v2_of_bytes p)) (V2 (v2_on true p)).
Proof.
  intros A L. cbn [mirrored v2_of_bytes v2_on v2_signature v2_checksum v2_len v2_major v2_minor v2_struct_max v2_revision v2_formatted
    v2_dmi_signature v2_dmi_checksum v2_smbios_len v2_smbios_address v2_smbios_count v2_bcd_revision].
  repeat match goal with |- _ /\ _ => split end;
    first [reflexivity | symmetry; apply field_one; lia | apply (field_reversed _ 4); [exact A|lia] | apply (field_reversed _ 2); [exact A|lia]].
Qed.
Lemma v3_mirrored p : all_bytes p -> len p = 24 -> mirrored (V3 (v3_of_bytes p)) (V3 (v3_on true p)).
Proof.
  intros A L. cbn [mirrored v3_of_bytes v3_on v3_signature v3_checksum v3_len v3_major v3_minor v3_docrev v3_revision v3_reserved
    v3_smbios_len_max v3_smbios_address].
  repeat match goal with |- _ /\ _ => split end;
    first [reflexivity | symmetry; apply field_one; lia | apply (field_reversed _ 4); [exact A|lia] | apply (field_reversed _ 8); [exact A|lia]].
Qed.

Lemma mirrored_fields e f : mirrored e f -> ep_len f = ep_len e /\ ep_major f = ep_major e.
Proof.
  destruct e as [p|p], f as [q|q]; cbn [mirrored]; intros H; try contradiction.
  - destruct H as [_ [_ [L [M _]]]]. cbn. auto.
  - destruct H as [_ [_ [L [M _]]]]. cbn. auto.
Qed.

Lemma search_mirror b : all_bytes b ->
  (exists e f, search b = Val (Ok e) /\ search_on true b = Val (Ok f) /\ mirrored e f) \/
  (exists x, search b = Val (Err x) /\ search_on true b = Val (Err x)).
Proof.
  intros A.
  assert (T : exists y, search b = Val y).
  { destruct (search_total b) as [y E]. eauto. }
  unfold search, search_on in *. destruct (find_signature b) as [[kind st]|]; [|right; eauto].
  destruct (slice_index_from b st) as [sub| |] eqn:S; cbn [obind] in *; try (destruct T; discriminate).
  assert (AS : all_bytes sub).
  { unfold slice_index_from, slice_get_from in S. destruct (st <=? len b); [|discriminate]. injection S as <-. now apply all_bytes_drop. }
  assert (E : forall z, exists x, Val (Err z) = @Val (result InvalidEntryPointError EntryPoint) (Err x) /\ Val (Err z) = @Val (result InvalidEntryPointError EntryPoint) (Err x)) by eauto.
  assert (K : forall e f, mirrored e f ->
    (exists y, (if negb (2 <=? ep_major e) then Val (Err (TooOldVersion (ep_major e)))
      else if negb (ep_len e <=? cast 8 (len sub)) then Val (Err (EpBadSize (cast 8 (len sub))))
      else let! body := slice_index sub 0 (ep_len e) in
           if negb (wrapping_sum body =? 0) then Val (Err (BadChecksum (wrapping_sum body))) else Val (Ok e)) = Val y) ->
    (exists e0 f0,
      (if negb (2 <=? ep_major e) then Val (Err (TooOldVersion (ep_major e)))
      else if negb (ep_len e <=? cast 8 (len sub)) then Val (Err (EpBadSize (cast 8 (len sub))))
      else let! body := slice_index sub 0 (ep_len e) in
           if negb (wrapping_sum body =? 0) then Val (Err (BadChecksum (wrapping_sum body))) else Val (Ok e)) = Val (Ok e0) /\
      (if negb (2 <=? ep_major f) then Val (Err (TooOldVersion (ep_major f)))
      else if negb (ep_len f <=? cast 8 (len sub)) then Val (Err (EpBadSize (cast 8 (len sub))))
      else let! body := slice_index sub 0 (ep_len f) in
           if negb (wrapping_sum body =? 0) then Val (Err (BadChecksum (wrapping_sum body))) else Val (Ok f)) = Val (Ok f0) /\ mirrored e0 f0) \/
    (exists x,
      (if negb (2 <=? ep_major e) then Val (Err (TooOldVersion (ep_major e)))
      else if negb (ep_len e <=? cast 8 (len sub)) then Val (Err (EpBadSize (cast 8 (len sub))))
      else let! body := slice_index sub 0 (ep_len e) in
           if negb (wrapping_sum body =? 0) then Val (Err (BadChecksum (wrapping_sum body))) else Val (Ok e)) = Val (Err x) /\
      (if negb (2 <=? ep_major f) then Val (Err (TooOldVersion (ep_major f)))
      else if negb (ep_len f <=? cast 8 (len sub)) then Val (Err (EpBadSize (cast 8 (len sub))))
      else let! body := slice_index sub 0 (ep_len f) in
           if negb (wrapping_sum body =? 0) then Val (Err (BadChecksum (wrapping_sum body))) else Val (Ok f)) = Val (Err x))).
  { intros e f M Y. destruct (mirrored_fields e f M) as [-> ->].
    destruct (negb (2 <=? ep_major e)); [right; apply E|]. destruct (negb (ep_len e <=? cast 8 (len sub))); [right; apply E|].
    destruct (slice_index sub 0 (ep_len e)) as [body| |]; cbn [obind] in *; try (destruct Y; discriminate).
    destruct (negb (wrapping_sum body =? 0)); [right; apply E|]. left. eauto. }
  destruct kind.
  - unfold size_of_v2 in *. destruct (31 <=? len sub) eqn:L; cbn [negb rbind] in *; [|right; apply E].
    unfold read_struct in *. rewrite L in *. cbn [obind rbind] in *.
    assert (LP : len (take 31 sub) = 31) by (rewrite len_take; lia).
    pose proof (v2_mirrored (take 31 sub) (all_bytes_take _ _ AS) LP) as M.
    assert (ML : v2_len (v2_on true (take 31 sub)) = v2_len (v2_of_bytes (take 31 sub))) by (destruct M as [_ [_ [X _]]]; now symmetry).
    rewrite ML. destruct (31 <=? v2_len (v2_of_bytes (take 31 sub))); cbn [negb rbind] in *; [|right; apply E].
    apply K; assumption.
  - unfold size_of_v3 in *. destruct (24 <=? len sub) eqn:L; cbn [negb rbind] in *; [|right; apply E].
    unfold read_struct in *. rewrite L in *. cbn [obind rbind] in *.
    assert (LP : len (take 24 sub) = 24) by (rewrite len_take; lia).
    pose proof (v3_mirrored (take 24 sub) (all_bytes_take _ _ AS) LP) as M.
    assert (ML : v3_len (v3_on true (take 24 sub)) = v3_len (v3_of_bytes (take 24 sub))) by (destruct M as [_ [_ [X _]]]; now symmetry).
    rewrite ML. destruct (24 <=? v3_len (v3_of_bytes (take 24 sub))); cbn [negb rbind] in *; [|right; apply E].
    apply K; assumption.
Qed.

(* one call of the iterator *)
Lemma next_raw_mirror c s : all_bytes (buffer s) ->
  (exists r t s', next_raw c s = Val (Some (Ok r), s') /\ next_raw_on true c s = Val (Some (Ok t), s') /\ mirrored_raw r t) \/
  (next_raw_on true c s = next_raw c s /\ forall r s', next_raw c s <> Val (Some (Ok r), s')).
Proof.
  intros A. unfold next_raw, next_raw_on, size_of_header.
  destruct (u_add c 32 (idx s) 4) as [h| |]; cbn [obind]; try (right; split; [reflexivity|discriminate]).
  destruct (smbios_len_ s <? h); [right; split; [reflexivity|discriminate]|].
  destruct (slice_index_from (buffer s) (idx s)) as [w| |] eqn:W; cbn [obind]; try (right; split; [reflexivity|discriminate]).
  destruct (len w <? 4) eqn:L; [right; split; [reflexivity|discriminate]|]. cbv zeta.
  assert (AW : all_bytes w).
  { unfold slice_index_from, slice_get_from in W. destruct (idx s <=? len (buffer s)); [|discriminate]. injection W as <-. now apply all_bytes_drop. }
  rewrite !field_one by lia. pose proof (field_reversed 2 2 w AW ltac:(lia)) as R.
  destruct (u_add c 32 (idx s) (at_ 1 1 w)) as [i| |]; cbn [obind]; try (right; split; [reflexivity|discriminate]).
  destruct (smbios_len_ s <=? i); [right; split; [reflexivity|discriminate]|].
  destruct (slice_index_from (buffer s) i) as [tl| |]; cbn [obind]; try (right; split; [reflexivity|discriminate]).
  destruct (find_nulnul tl) as [n|]; [|right; split; [reflexivity|discriminate]].
  destruct (slice_index (buffer s) h i) as [d| |]; cbn [obind]; try (right; split; [reflexivity|discriminate]).
  destruct (u_add c 32 i (cast 32 (n + 1))) as [e| |]; cbn [obind]; try (right; split; [reflexivity|discriminate]).
  destruct (slice_index (buffer s) i e) as [st| |]; cbn [obind]; try (right; split; [reflexivity|discriminate]).
  left. do 3 eexists. split; [reflexivity|]. split; [reflexivity|]. unfold mirrored_raw. cbn. repeat split; try reflexivity. exact R.
Qed.

(* following the calls by computation *)
Fixpoint chase {S A} (next : S -> out (option A * S)) (n : nat) (s : S) : option (ending S * N) :=
  match n with
  | O => None
  | Datatypes.S m =>
    match next s with
    | Val (None, s') => Some (Exhausted s', 0)
    | Panic => Some (Panicked, 0)
    | UB => Some (Undefined, 0)
    | Val (Some _, s') => match chase next m s' with Some (e, k) => Some (e, k + 1) | None => None end
    end
  end.
Lemma chase_runs {S A} (next : S -> out (option A * S)) n : forall s e k,
  chase next n s = Some (e, k) -> exists l, runs next s l e /\ len l = k.
Proof.
  induction n as [|n IH]; intros s e k H; [discriminate|]. cbn [chase] in H.
  destruct (next s) as [[[a|] s']| |] eqn:E.
  - destruct (chase next n s') as [[e' k']|] eqn:F; [|discriminate]. injection H as <- <-.
    destruct (IH _ _ _ F) as [l [R L]]. exists (a :: l). split; [econstructor; eassumption|]. unfold len in *. cbn [length]. lia.
  - injection H as <- <-. exists []. split; [now constructor|reflexivity].
  - injection H as <- <-. exists []. split; [now constructor|reflexivity].
  - injection H as <- <-. exists []. split; [now constructor|reflexivity].
Qed.
