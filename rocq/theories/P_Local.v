(* Properties C63-C65: what an item of an iteration depends on.
   Vocabulary: Spec.v (runs), S_Iter.v (framed, here, extent, seen), S_Local.v (reaches,
   shifted, announced). *)
From Coq Require Import ZArith Lia ZifyBool ZifyNat ZifyN.
From Verif Require Import Base G_Enums M_Raw M_Entry M_Strings M_Iter T_Data Spec S_Iter S_Table S_Local L_Base L_Iter L_After L_Frame L_Table
  L_Local P_Iter P_System P_Safety.
Local Open Scope N_scope.

(* C63: one structure of a table is replaced by another one of the same size.  The items
   before it stay what they were, the replaced structure is decoded on its own, and the
   items after it and the way the iteration ends stay the same (unless decoding the new
   structure crashes). *)
Theorem C63_replacement_is_local : forall c v n pre x x' post l1 s1 r r' i s2 l2 en,
  flat_memory c = false ->
  let s := start v n (pre ++ x ++ post) in
  let t := start v n (pre ++ x' ++ post) in
  sane s -> sane t -> len x = len x' ->
  reaches (next c) s l1 s1 -> idx s1 = len pre -> here s1 r -> extent r = len x ->
  framed v (pre ++ x' ++ post) (len pre) r' -> extent r' = len x' -> len pre + length_ r' < n ->
  (info r = InfoType_End <-> info r' = InfoType_End) ->
  next c s1 = Val (Some i, s2) -> runs (next c) s2 l2 en ->
  exists l1', map seen l1' = map seen l1 /\
  match dispatch c r' with
  | Val i' => exists en', runs (next c) t (l1' ++ i' :: l2) en' /\ seen_ending en' = seen_ending en
  | Panic => runs (next c) t l1' Panicked
  | UB => runs (next c) t l1' Undefined
  end.
Proof. intros c v n pre x x' post l1 s1 r r' i s2 l2 en. apply replaced. Qed.
Print Assumptions C63_replacement_is_local.

(* In particular any damage to the formatted area behind the header. *)
Lemma damaged c v n pre k l h0 h1 body body' area post l1 s1 i s2 l2 en :
  flat_memory c = false ->
  let s := start v n (pre ++ ([k; l; h0; h1] ++ body ++ area) ++ post) in
  let t := start v n (pre ++ ([k; l; h0; h1] ++ body' ++ area) ++ post) in
  sane s -> sane t -> l = 4 + len body -> len body' = len body -> string_area area ->
  reaches (next c) s l1 s1 -> idx s1 = len pre ->
  next c s1 = Val (Some i, s2) -> (forall e, i = Err e -> ~ framing_error e) -> runs (next c) s2 l2 en ->
  exists l1', map seen l1' = map seen l1 /\
  match dispatch c {| version := v; info := InfoType_from k; length_ := l; handle := h0 + 256 * h1; data := body';
                      strings := area; after := area ++ post |} with
  | Val i' => exists en', runs (next c) t (l1' ++ i' :: l2) en' /\ seen_ending en' = seen_ending en
  | Panic => runs (next c) t l1' Panicked
  | UB => runs (next c) t l1' Undefined
  end.
Proof.
  intros HF s t HS HT EL EB A R1 EI N1 NE R2.
  destruct (reaches_sane c s l1 s1 R1 HS) as [HS1 EBU].
  destruct (next_item c s1 i s2 HS1 N1) as [[e [E [FE _]]]|[r [HR [D _]]]]; [destruct (NE e E FE)|].
  set (r' := {| version := v; info := InfoType_from k; length_ := l; handle := h0 + 256 * h1; data := body';
                strings := area; after := area ++ post |}).
  destruct (not_stopped c s l1 s1 R1 HS (proj1 (proj2 HR))) as [K [_ V1]]. change (smbios_len_ s1 = n) in K. change (smbios_version s1 = v) in V1.
  assert (F0 : framed v (pre ++ ([k; l; h0; h1] ++ body ++ area) ++ post) (len pre)
    {| version := v; info := InfoType_from k; length_ := l; handle := h0 + 256 * h1; data := body; strings := area; after := area ++ post |}).
  { exists pre, post, k, h0, h1. cbn [version info length_ handle data strings after]. rewrite <- !app_assoc. repeat (split; [reflexivity || assumption|]). reflexivity. }
  assert (F1 : framed v (pre ++ ([k; l; h0; h1] ++ body' ++ area) ++ post) (len pre) r').
  { exists pre, post, k, h0, h1. cbn [r' version info length_ handle data strings after]. rewrite <- !app_assoc.
    split; [reflexivity|]. split; [reflexivity|]. split; [lia|]. repeat (split; [reflexivity || assumption|]). reflexivity. }
  destruct HR as [F [H1 H2]]. rewrite V1, EI, EBU in F. cbn [s start buffer] in F.
  pose proof (framed_fun _ _ _ _ _ F F0) as ER.
  assert (LX : len ([k; l; h0; h1] ++ body ++ area) = len ([k; l; h0; h1] ++ body' ++ area)) by (rewrite !len_app; lia).
  assert (XR : extent r = len ([k; l; h0; h1] ++ body ++ area)).
  { subst r. unfold extent. cbn [length_ strings]. rewrite !len_app. change (len [k; l; h0; h1]) with 4. lia. }
  apply (replaced c v n pre _ _ post l1 s1 r r' i s2 l2 en HF HS HT LX R1 EI); try assumption.
  - split; [rewrite V1, EI, EBU; exact F|]. split; [exact H1|exact H2].
  - rewrite <- LX, <- XR. subst r. unfold extent. reflexivity.
  - subst r. cbn [length_] in H2. cbn [r' length_]. lia.
  - subst r. reflexivity.
Qed.
Theorem C63_damage_is_local : forall c v n pre k l h0 h1 body body' area post l1 s1 i s2 l2 en,
  flat_memory c = false ->
  let s := start v n (pre ++ ([k; l; h0; h1] ++ body ++ area) ++ post) in
  let t := start v n (pre ++ ([k; l; h0; h1] ++ body' ++ area) ++ post) in
  sane s -> sane t -> l = 4 + len body -> len body' = len body -> string_area area ->
  reaches (next c) s l1 s1 -> idx s1 = len pre ->
  next c s1 = Val (Some i, s2) -> (forall e, i = Err e -> ~ framing_error e) -> runs (next c) s2 l2 en ->
  exists l1', map seen l1' = map seen l1 /\
  match dispatch c {| version := v; info := InfoType_from k; length_ := l; handle := h0 + 256 * h1; data := body';
                      strings := area; after := area ++ post |} with
  | Val i' => exists en', runs (next c) t (l1' ++ i' :: l2) en' /\ seen_ending en' = seen_ending en
  | Panic => runs (next c) t l1' Panicked
  | UB => runs (next c) t l1' Undefined
  end.
Proof. intros c v n pre k l h0 h1 body body' area post l1 s1 i s2 l2 en. apply damaged. Qed.
Print Assumptions C63_damage_is_local.

(* Where reads past a structure are tolerated this is false: here the current language
   of the first structure is a byte of the second one. *)
Definition ex_neighbours (x : N) : list N :=
  [13; 6; 0; 0; 1; 0; 0; 0; 200; 14; 0; 0; 1; 2; 3; 4; 5; 6; 7; 8; 9; x; 0; 0].
Theorem C63_flat_memory_refuted : exists b1 s1 b2 s2, let v := {| major := 2; minor := 7 |} in
  next ex_flat (start v 24 (ex_neighbours 77)) = Val (Some (Ok (SBiosLanguage b1)), s1) /\ idx s1 = 8 /\
  language_current_language b1 = 77 /\
  next ex_flat (start v 24 (ex_neighbours 78)) = Val (Some (Ok (SBiosLanguage b2)), s2) /\ idx s2 = 8 /\
  language_current_language b2 = 78.
Proof. do 4 eexists. cbv zeta. repeat (split; [vm_compute; reflexivity|]). vm_compute. reflexivity. Qed.
Print Assumptions C63_flat_memory_refuted.

(* the second structure of the table of P_Iter, its body damaged: one item before it,
   one after it *)
Example C63_example : exists l1 s1 i s2 l2 s3,
  let pre := encode (nth 0 ex_list {| e_type := 0; e_handle := 0; e_body := []; e_strings := [] |}) in
  let post := encode (nth 2 ex_list {| e_type := 0; e_handle := 0; e_body := []; e_strings := [] |}) in
  let s := start {| major := 3; minor := 2 |} 26 (pre ++ ([200; 7; 7; 0] ++ [0; 0; 9] ++ [0; 0]) ++ post) in
  sane s /\ sane (start {| major := 3; minor := 2 |} 26 (pre ++ ([200; 7; 7; 0] ++ [255; 0; 127] ++ [0; 0]) ++ post)) /\
  string_area [0; 0] /\ reaches (next ex_cfg) s l1 s1 /\ idx s1 = len pre /\ next ex_cfg s1 = Val (Some i, s2) /\
  (forall e, i = Err e -> ~ framing_error e) /\ runs (next ex_cfg) s2 l2 (Exhausted s3) /\ len l1 = 1 /\ len l2 = 1.
Proof.
  do 6 eexists. cbv zeta.
  split; [split; [apply all_bytes_dec; vm_compute; reflexivity|split; vm_compute; discriminate]|].
  split; [split; [apply all_bytes_dec; vm_compute; reflexivity|split; vm_compute; discriminate]|].
  split; [exact (encode_strings_area [] (Forall_nil _))|].
  split; [eapply reaches_on; [vm_compute; reflexivity|apply reaches_here]|].
  split; [vm_compute; reflexivity|]. split; [vm_compute; reflexivity|]. split; [intros e; discriminate|].
  split; [eapply runs_some; [vm_compute; reflexivity|]; apply runs_none; vm_compute; reflexivity|]. split; reflexivity.
Qed.

(* C64: where a table lies in its buffer does not matter; only the positions that the
   errors name move along. *)
Theorem C64_position_independent : forall c p s l e, sane (shifted p s) -> runs (next c) s l e ->
  runs (next c) (shifted p s) (map (further (len p)) l) (shifted_ending p e).
Proof. intros c p s l e HS R. apply runs_shift; assumption. Qed.
Print Assumptions C64_position_independent.

(* A table that is read to its last byte, followed by another table: first the items of
   the one, then those of the other. *)
Theorem C64_tables_concatenate : forall c v a b l1 s1 l2 e2, flat_memory c = false ->
  sane (start v (len (a ++ b)) (a ++ b)) ->
  runs (next c) (start v (len a) a) l1 (Exhausted s1) -> idx s1 = len a -> goes_on v l1 ->
  runs (next c) (start v (len b) b) l2 e2 ->
  exists l1', map seen l1' = map seen l1 /\
    runs (next c) (start v (len (a ++ b)) (a ++ b)) (l1' ++ map (further (len a)) l2) (shifted_ending a e2).
Proof. intros c v a b l1 s1 l2 e2. apply concatenated. Qed.
Print Assumptions C64_tables_concatenate.

(* without [goes_on] this is false: from version 3 on an End structure hides what follows *)
Theorem C64_after_end_refuted : exists a b l1 s1 l2 s2 l, let v := {| major := 3; minor := 2 |} in
  runs (next ex_cfg) (start v (len a) a) l1 (Exhausted s1) /\ idx s1 = len a /\
  runs (next ex_cfg) (start v (len b) b) l2 (Exhausted s2) /\ len l2 = 1 /\
  exists s3, runs (next ex_cfg) (start v (len (a ++ b)) (a ++ b)) l (Exhausted s3) /\ len l = len l1.
Proof.
  exists [127; 4; 0; 0; 0; 0], [200; 4; 0; 0; 0; 0]. do 5 eexists. cbv zeta.
  split; [eapply runs_some; [vm_compute; reflexivity|]; apply runs_none; vm_compute; reflexivity|].
  split; [reflexivity|]. split; [eapply runs_some; [vm_compute; reflexivity|]; apply runs_none; vm_compute; reflexivity|].
  split; [reflexivity|]. eexists. split; [eapply runs_some; [vm_compute; reflexivity|]; apply runs_none; vm_compute; reflexivity|].
  reflexivity.
Qed.
Print Assumptions C64_after_end_refuted.

(* a table with a decoding error, followed by one that is cut *)
Example C64_example : exists l1 s1 l2 s2, let v := {| major := 2; minor := 7 |} in
  let b := [200; 4; 0; 0; 0; 0; 201; 9; 0; 0] in
  sane (start v (len (ex_bad_count ++ b)) (ex_bad_count ++ b)) /\
  runs (next ex_cfg) (start v (len ex_bad_count) ex_bad_count) l1 (Exhausted s1) /\ idx s1 = len ex_bad_count /\ goes_on v l1 /\
  runs (next ex_cfg) (start v (len b) b) l2 (Exhausted s2) /\
  map (further (len ex_bad_count)) (skipn 1 l2) = [Err (BadSize 20 9)] /\ len l1 = 2 /\ len l2 = 2.
Proof.
  do 4 eexists. cbv zeta.
  split; [split; [apply all_bytes_dec; vm_compute; reflexivity|split; vm_compute; discriminate]|].
  split; [do 2 (eapply runs_some; [vm_compute; reflexivity|]); apply runs_none; vm_compute; reflexivity|].
  split; [reflexivity|]. split; [intros H; cbn in H; lia|].
  split; [do 2 (eapply runs_some; [vm_compute; reflexivity|]); apply runs_none; vm_compute; reflexivity|]. split; [|split]; reflexivity.
Qed.

(* C65: a smaller announced length gives a prefix of the items, at most followed by one
   complaint about the structure that it cuts; the iteration crashes only if it does
   with the larger length too, at the same structure. *)
Theorem C65_shorter_announcement : forall c s n l e l' e', sane s -> n <= smbios_len_ s ->
  runs (next c) s l e -> runs (next c) (announced n s) l' e' ->
  exists l0 rest, l = l0 ++ rest /\
    ((l' = l0 /\ (finish_of e' = Finished \/ (rest = [] /\ finish_of e' = finish_of e))) \/
     (exists p k, l' = l0 ++ [Err (BadSize p k)] /\ finish_of e' = Finished)).
Proof. intros c s n l e l' e' HS HN R R'. exact (runs_shorter c s l e R n l' e' HS HN R'). Qed.
Print Assumptions C65_shorter_announcement.

(* Exactly which prefix: an item is kept if the formatted area of its structure ends before
   the smaller length, even if its strings do not; if only the header fits the item is
   BadSize with the position and length of the structure; if not even that fits, nothing
   follows the item before. *)
Theorem C65_exactly : forall c s n l1 s1 r, sane s -> n <= smbios_len_ s ->
  reaches (next c) s l1 s1 -> here s1 r ->
  (idx s1 + length_ r < n -> forall i s2, next c s1 = Val (Some i, s2) ->
     exists t, reaches (next c) (announced n s) (l1 ++ [i]) t /\
       (n < idx s2 + 4 -> runs (next c) (announced n s) (l1 ++ [i]) (Exhausted t))) /\
  (idx s1 + 4 <= n <= idx s1 + length_ r ->
     exists t, runs (next c) (announced n s) (l1 ++ [Err (BadSize (idx s1) (length_ r))]) (Exhausted t)).
Proof. exact shorter_exactly. Qed.
Print Assumptions C65_exactly.

(* the second structure of that table starts at 11 and is 7 bytes long *)
Example C65_exactly_example : exists l1 s1 r i s2, let s := start {| major := 2; minor := 7 |} 26 (table ex_list) in
  sane s /\ reaches (next ex_cfg) s l1 s1 /\ here s1 r /\ len l1 = 1 /\ idx s1 = 11 /\ length_ r = 7 /\
  next ex_cfg s1 = Val (Some i, s2) /\ idx s2 = 20.
Proof.
  set (e1 := nth 0 ex_list (Build_encodable 0 0 [] [])). set (e2 := nth 1 ex_list (Build_encodable 0 0 [] [])).
  eexists [_]. exists {| smbios_version := {| major := 2; minor := 7 |}; smbios_len_ := 26; idx := 11; buffer := table ex_list |}.
  exists (raw_of {| major := 2; minor := 7 |} e2 (table (skipn 2 ex_list))). do 2 eexists. cbv zeta.
  split; [split; [apply all_bytes_dec; vm_compute; reflexivity|split; vm_compute; discriminate]|].
  split; [eapply reaches_on; [vm_compute; reflexivity|apply reaches_here]|].
  split.
  { split; [|split; [vm_compute; discriminate|vm_compute; reflexivity]]. cbn [smbios_version buffer idx].
    replace (table ex_list) with (encode e1 ++ encode e2 ++ table (skipn 2 ex_list)) by (vm_compute; reflexivity).
    replace 11 with (len (encode e1)) by (vm_compute; reflexivity).
    apply framed_encode. exact (proj1 (Forall_forall _ _) ex_list_ok e2 (or_intror (or_introl eq_refl))). }
  split; [reflexivity|]. split; [reflexivity|]. split; [reflexivity|]. split; [vm_compute; reflexivity|]. reflexivity.
Qed.

(* the table of P_Iter cut in its last structure, and between two structures *)
Example C65_example : exists l s1 l' s2 l'' s3, let s := start {| major := 2; minor := 7 |} 26 (table ex_list) in
  sane s /\ runs (next ex_cfg) s l (Exhausted s1) /\ len l = 3 /\
  runs (next ex_cfg) (announced 24 s) (l' ++ [Err (BadSize 20 4)]) (Exhausted s2) /\ len l' = 2 /\
  runs (next ex_cfg) (announced 22 s) l'' (Exhausted s3) /\ len l'' = 2.
Proof.
  do 2 eexists. eexists [_; _]. eexists. eexists [_; _]. eexists. cbv zeta.
  split; [split; [apply all_bytes_dec; vm_compute; reflexivity|split; vm_compute; discriminate]|].
  split; [do 3 (eapply runs_some; [vm_compute; reflexivity|]); apply runs_none; vm_compute; reflexivity|].
  split; [reflexivity|].
  split; [cbn [app]; do 3 (eapply runs_some; [vm_compute; reflexivity|]); apply runs_none; vm_compute; reflexivity|].
  split; [reflexivity|].
  split; [do 2 (eapply runs_some; [vm_compute; reflexivity|]); apply runs_none; vm_compute; reflexivity|]. reflexivity.
Qed.
