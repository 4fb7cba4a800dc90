(* Lemmas for C98. *)
From Coq Require Import String.
From Coq Require Import ZArith Lia ZifyBool ZifyNat ZifyN.
From Verif Require Import Base G_Enums M_Raw M_Iter Spec S_Iter S_Client L_Base L_Iter L_Frame.
Local Open Scope N_scope.

(* the range an offset and a size stand for *)
Definition span (c : cfg) (o w : N) : out (N * N) :=
  let! a := u_sub c (usize_bits c) o 4 in let! b := u_add c (usize_bits c) a w in Val (a, b).
Definition piece_of (r : RawStructure) (ab : N * N) : list N :=
  match slice_get (data r) (fst ab) (snd ab) with Some s => s | None => [] end.
Lemma get_span c w o r : get c w o r = let! ab := span c o w in Val (if len (piece_of r ab) =? w then Ok (le (piece_of r ab)) else Err InvalidSlice).
Proof. unfold get, span. destruct (u_sub _ _ _ _) as [a| |]; cbn [obind]; [|reflexivity..]. destruct (u_add _ _ _ _); reflexivity. Qed.
Lemma own_span c w o r : own_slice c w o r = let! ab := span c o w in Val (piece_of r ab).
Proof. unfold own_slice, span. destruct (u_sub _ _ _ _) as [a| |]; cbn [obind]; [|reflexivity..]. destruct (u_add _ _ _ _); reflexivity. Qed.
Lemma slice_span c o n r : get_slice c o n r = let! ab := span c o n in Val (slice_get (data r) (fst ab) (snd ab)).
Proof. unfold get_slice, span. destruct (u_sub _ _ _ _) as [a| |]; cbn [obind]; [|reflexivity..]. destruct (u_add _ _ _ _); reflexivity. Qed.
Lemma string_get c o r : get_string c o r = let! x := get c 1 o r in Val (match x with Ok i => find_string r i | Err e => Err e end).
Proof. unfold get_string, rbind, obind. destruct (get c 1 o r) as [[]| |]; reflexivity. Qed.

Lemma span_cases c o w : (exists ab, span c o w = Val ab) \/ (span c o w = Panic /\ overflow_checks c = true).
Proof.
  unfold span, u_sub, u_add. destruct (4 <=? o); cbn [obind].
  - destruct (_ <? _); [left; eexists; reflexivity|]. destruct (overflow_checks c); [right; auto|left; eexists; reflexivity].
  - destruct (overflow_checks c) eqn:E; [right; auto|]. cbn [obind]. destruct (_ <? _); left; eexists; reflexivity.
Qed.
Lemma span_well c o w : asks_well o w -> span c o w = Val (o - 4, o - 4 + w).
Proof.
  intros [A B]. unfold span, u_sub, u_add. destruct (N.leb_spec 4 o) as [H|H]; [|lia]. cbn [obind].
  assert (L : o - 4 + w < 2 ^ usize_bits c) by (unfold usize_bits; destruct (pointer_width c); [exact B|change (2 ^ 32) with 4294967296 in B; change (2 ^ 64) with 18446744073709551616; lia]).
  destruct (N.ltb_spec (o - 4 + w) (2 ^ usize_bits c)); [reflexivity|lia].
Qed.

Lemma client_cases {A} c (p : client A) r : (exists a, run_client c p r = Val a) \/ (run_client c p r = Panic /\ overflow_checks c = true).
Proof.
  induction p as [a|k IH|w o k IH|w o k IH|o n k IH|o k IH|i k IH]; cbn [run_client].
  - left. eexists. reflexivity.
  - apply IH.
  - rewrite get_span. destruct (span_cases c o w) as [[ab ->]|[-> H]]; cbn [obind]; [apply IH|right; auto].
  - rewrite own_span. destruct (span_cases c o w) as [[ab ->]|[-> H]]; cbn [obind]; [apply IH|right; auto].
  - rewrite slice_span. destruct (span_cases c o n) as [[ab ->]|[-> H]]; cbn [obind]; [apply IH|right; auto].
  - rewrite string_get, get_span. destruct (span_cases c o 1) as [[ab ->]|[-> H]]; cbn [obind]; [apply IH|right; auto].
  - apply IH.
Qed.
Lemma client_careful {A} c c' (p : client A) r : careful p -> (exists a, run_client c p r = Val a) /\ run_client c p r = run_client c' p r.
Proof.
  induction p as [a|k IH|w o k IH|w o k IH|o n k IH|o k IH|i k IH]; cbn [run_client careful]; intros H.
  - split; [eexists; reflexivity|reflexivity].
  - apply IH, H.
  - rewrite !get_span, !span_well by apply H. cbn [obind]. apply IH, H.
  - rewrite !own_span, !span_well by apply H. cbn [obind]. apply IH, H.
  - rewrite !slice_span, !span_well by apply H. cbn [obind]. apply IH, H.
  - rewrite !string_get, !get_span, !span_well by apply H. cbn [obind]. apply IH, H.
  - apply IH, H.
Qed.
Lemma piece_byte r ab : all_bytes (data r) -> (len (piece_of r ab) =? 1) = true -> le (piece_of r ab) < 256.
Proof.
  intros B L. apply N.eqb_eq in L. apply (N.lt_le_trans _ (256 ^ len (piece_of r ab))); [apply le_bound|rewrite L; cbn; lia].
  unfold piece_of. destruct (slice_get _ _ _) as [s|] eqn:E; [|constructor].
  apply slice_get_some in E as (_ & _ & ->). apply all_bytes_take, all_bytes_drop, B.
Qed.
Lemma client_same {A} c (p : client A) r r' : all_bytes (data r) -> reads_same r r' -> run_client c p r = run_client c p r'.
Proof.
  intros B (V & I & L & H & D & F).
  assert (P : forall ab, piece_of r ab = piece_of r' ab) by (intros ab; unfold piece_of; rewrite D; reflexivity).
  induction p as [a|k IH|w o k IH|w o k IH|o n k IH|o k IH|i k IH]; cbn [run_client].
  - reflexivity.
  - rewrite V, I, L, H, D. apply IH.
  - rewrite !get_span. destruct (span c o w) as [ab| |]; cbn [obind]; [|reflexivity..]. rewrite P. apply IH.
  - rewrite !own_span. destruct (span c o w) as [ab| |]; cbn [obind]; [|reflexivity..]. rewrite P. apply IH.
  - rewrite !slice_span. destruct (span c o n) as [ab| |]; cbn [obind]; [|reflexivity..]. rewrite D. apply IH.
  - rewrite !string_get, !get_span. destruct (span c o 1) as [ab| |]; cbn [obind]; [|reflexivity..]. rewrite <- P.
    destruct (_ =? _) eqn:E; [rewrite (F _ (piece_byte _ _ B E))|]; apply IH.
  - rewrite (F (i mod 256)) by (apply N.mod_lt; discriminate). apply IH.
Qed.

Lemma reads_bare r r' : bare r = bare r' -> reads_same r r'.
Proof.
  intros H. pose proof (f_equal version H) as V. pose proof (f_equal info H) as I. pose proof (f_equal length_ H) as L.
  pose proof (f_equal handle H) as HH. pose proof (f_equal data H) as D. pose proof (f_equal strings H) as S.
  cbn [bare version info length_ handle data strings] in *. repeat (split; [assumption|]).
  intros k _. unfold find_string, raw_strings. rewrite S, I, HH. reflexivity.
Qed.

Lemma client_bare {A} c (p : client A) r r' : bare r = bare r' -> run_client c p r = run_client c p r'.
Proof.
  intros E. pose proof (reads_bare _ _ E) as (V & I & L & H & D & _).
  assert (F : forall k, find_string r k = find_string r' k).
  { intros k. pose proof (f_equal strings E) as S. cbn [bare strings] in S. unfold find_string, raw_strings. rewrite S, I, H. reflexivity. }
  assert (P : forall ab, piece_of r ab = piece_of r' ab) by (intros ab; unfold piece_of; rewrite D; reflexivity).
  induction p as [a|k IH|w o k IH|w o k IH|o n k IH|o k IH|i k IH]; cbn [run_client].
  - reflexivity.
  - rewrite V, I, L, H, D. apply IH.
  - rewrite !get_span. destruct (span c o w) as [ab| |]; cbn [obind]; [|reflexivity..]. rewrite P. apply IH.
  - rewrite !own_span. destruct (span c o w) as [ab| |]; cbn [obind]; [|reflexivity..]. rewrite P. apply IH.
  - rewrite !slice_span. destruct (span c o n) as [ab| |]; cbn [obind]; [|reflexivity..]. rewrite D. apply IH.
  - rewrite !string_get, !get_span. destruct (span c o 1) as [ab| |]; cbn [obind]; [|reflexivity..]. rewrite P.
    destruct (_ =? _); [rewrite F|]; apply IH.
  - rewrite F. apply IH.
Qed.

Definition ask_all : client (SmbiosVersion * InfoType * N * N * list N) := Fields (fun v i l h d => Done (v, i, l, h, d)).
Definition ask_text (k : N) : client (res text) := FindString k Done.
Lemma client_told c r r' : (forall A (p : client A), careful p -> run_client c p r = run_client c p r') -> reads_same r r'.
Proof.
  intros H. pose proof (H _ ask_all) as E. cbn in E. assert (C : careful ask_all) by (cbn; auto). specialize (E C). injection E as V I L HH D.
  repeat (split; [assumption|]). intros k K. assert (C' : careful (ask_text k)) by (cbn; auto). pose proof (H _ _ C') as F. cbn [ask_text run_client] in F. rewrite N.mod_small in F by exact K. congruence.
Qed.

Lemma app_eq_len {A} (a b c d : list A) : len a = len c -> app a b = app c d -> a = c /\ b = d.
Proof.
  revert c. induction a as [|x a IH]; intros [|y c'] L E; [|rewrite len_cons in L; unfold len in L; cbn [length] in L; lia|rewrite len_cons in L; unfold len in L; cbn [length] in L; lia|].
  - split; [reflexivity|exact E].
  - cbn in E. injection E as -> E. rewrite !len_cons in L. apply IH in E as [-> ->]; [auto|lia].
Qed.

(* structures of two tables that consist of the same bytes *)
Lemma framed_bytes v buf pos r : framed v buf pos r -> 
  exists k h0 h1, take (extent r) (drop pos buf) = [k; length_ r; h0; h1] ++ data r ++ strings r /\
    length_ r = 4 + len (data r) /\ info r = InfoType_from k /\ handle r = h0 + 256 * h1 /\ version r = v.
Proof.
  intros (pre & post & k & h0 & h1 & E & P & L & A & I & H & V & _). exists k, h0, h1.
  split; [|auto]. rewrite E, drop_app_exact by auto.
  replace ([k; length_ r; h0; h1] ++ data r ++ strings r ++ post) with (([k; length_ r; h0; h1] ++ data r ++ strings r) ++ post) by (rewrite <- !app_assoc; reflexivity).
  apply take_app_exact. unfold extent. rewrite !len_app. change (len [k; length_ r; h0; h1]) with 4. lia.
Qed.
Lemma bytes_bare v buf buf' pos pos' r r' : framed v buf pos r -> framed v buf' pos' r' ->
  take (extent r) (drop pos buf) = take (extent r') (drop pos' buf') -> bare r = bare r'.
Proof.
  intros F F' E. apply framed_bytes in F as (k & h0 & h1 & B & L & I & H & V). apply framed_bytes in F' as (k' & h0' & h1' & B' & L' & I' & H' & V').
  rewrite B, B' in E. cbn [app] in E. injection E as EK EL E0 E1 E.
  apply app_eq_len in E; [|lia]. destruct E as [D S]. unfold bare. rewrite V, V', I, I', EK, EL, H, H', E0, E1, D, S. reflexivity.
Qed.
Lemma other_bare c s r s' t r' t' : sane s -> sane t -> smbios_version s = smbios_version t ->
  next c s = Val (Some (Ok (SOther r)), s') -> next c t = Val (Some (Ok (SOther r')), t') ->
  take (idx s' - idx s) (drop (idx s) (buffer s)) = take (idx t' - idx t) (drop (idx t) (buffer t)) -> bare r = bare r'.
Proof.
  intros S T V N1 N2 E.
  assert (K : forall s r s', sane s -> next c s = Val (Some (Ok (SOther r)), s') -> framed (smbios_version s) (buffer s) (idx s) r /\ idx s' - idx s = extent r).
  { clear. intros s r s' S N. destruct (success_moves _ _ _ _ S N) as (r0 & [F _] & D & K). apply dispatch_other in D. subst r0.
    split; [exact F|]. destruct K as [[_ [_ ->]]|[_ ->]]; cbn [idx stopped_at moved_to]; lia. }
  apply K in N1 as [F1 K1], N2 as [F2 K2]; [|assumption..]. rewrite K1, K2 in E. rewrite V in F1. exact (bytes_bare _ _ _ _ _ _ _ F1 F2 E).
Qed.
