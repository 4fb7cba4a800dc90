(* Property C78: going through a table and looking up a string take linear work.
   The counting versions of the loops are in M_Cost; the first theorem of each group says
   that they compute what the model computes. *)
From Coq Require Import ZArith Lia ZifyBool ZifyNat ZifyN.
From Verif Require Import Base G_Enums M_Raw M_Entry M_Iter M_Cost T_Data Spec S_Entry S_Iter S_Cost L_Base L_Entry L_Iter L_Cost P_Iter.
Local Open Scope N_scope.

Theorem C78_counts_the_model :
  (forall c s, fst (next_raw_counted c s) = next_raw c s) /\
  (forall r i, fst (find_string_counted r i) = find_string r i) /\
  (forall b, fst (find_signature_counted 0 (chunks STRIDE b)) = find_signature b).
Proof.
  split; [exact next_raw_erase|]. split; [exact find_string_erase|]. intros b. apply signature_erase.
Qed.
Print Assumptions C78_counts_the_model.

(* All calls of next together go round the search loop at most once for each byte of the
   buffer, whatever is in it and whatever length was announced. *)
Theorem C78_iteration : forall c s, sane s ->
  (exists n, work c s n) /\ forall n, work c s n -> n <= len (buffer s) - idx s.
Proof. intros c s S. split; [now apply work_exists|]. intros n. now apply work_linear. Qed.
Print Assumptions C78_iteration.

(* A structure costs as many turns as its string area has bytes, less one. *)
Theorem C78_structure : forall c s r, sane s -> framed (smbios_version s) (buffer s) (idx s) r ->
  idx s + 4 <= smbios_len_ s -> idx s + length_ r < smbios_len_ s ->
  turns c s + 1 = len (strings r).
Proof. exact turns_framed. Qed.
Print Assumptions C78_structure.

(* The announced length does not bound the work: one structure announced with 5 bytes
   makes the search run through the buffer. *)
Theorem C78_announced_length_refuted : forall n, 6 <= n -> n + 260 <= 2 ^ 32 ->
  exists s, sane s /\ smbios_len_ s = 5 /\ len (buffer s) = n /\
  forall c, work c s (n - 4).
Proof.
  intros n H1 H2.
  exists {| smbios_version := {| major := 2; minor := 7 |}; smbios_len_ := 5; idx := 0;
            buffer := [200; 4; 0; 0] ++ repeat 1 (N.to_nat (n - 4)) |}.
  set (tail := repeat 1 (N.to_nat (n - 4))).
  assert (LT : len tail = n - 4) by (unfold tail, len; rewrite repeat_length; lia).
  assert (NT : forall k i, find_nulnul_from i (repeat 1 k) = None).
  { induction k as [|[|k] IH]; intros i; try reflexivity. change (repeat 1 (S (S k))) with (1 :: 1 :: repeat 1 k).
    rewrite nulnul_from_cons. cbn [N.eqb andb]. apply (IH (i + 1)). }
  assert (S0 : sane {| smbios_version := {| major := 2; minor := 7 |}; smbios_len_ := 5; idx := 0; buffer := [200; 4; 0; 0] ++ tail |}).
  { unfold sane. cbn [buffer idx]. split; [|split; [lia|rewrite len_app, LT; change (len [200; 4; 0; 0]) with 4; lia]].
    apply all_bytes_app. split; [apply all_bytes_dec; reflexivity|]. apply Forall_forall. intros b I.
    apply repeat_spec in I. subst b. reflexivity. }
  split; [exact S0|]. split; [reflexivity|]. split; [cbn [buffer]; rewrite len_app, LT; change (len [200; 4; 0; 0]) with 4; lia|].
  intros c. set (s := {| smbios_version := _; smbios_len_ := 5; idx := 0; buffer := [200; 4; 0; 0] ++ tail |}) in *.
  assert (LB : (4 <=? len (buffer s)) = true) by (cbn [buffer s]; rewrite len_app; change (len [200; 4; 0; 0]) with 4; lia).
  assert (R : next_raw_counted c s = (Val (Some (Err (UnterminatedStrings 0)), s), n - 4)).
  { unfold next_raw_counted. change (idx s) with 0. change (smbios_len_ s) with 5.
    change (u_add c 32 0 size_of_header) with (@Val N 4). change (5 <? 4) with false.
    unfold slice_index_from, slice_get_from.
    replace (0 <=? len (buffer s)) with true by (symmetry; lia). change (drop 0 (buffer s)) with (buffer s).
    replace (len (buffer s) <? size_of_header) with false by (unfold size_of_header; lia). cbv zeta.
    change (at_ 1 1 (buffer s)) with 4. change (u_add c 32 0 4) with (@Val N 4). cbv beta iota. change (5 <=? 4) with false. cbv iota.
    rewrite LB. cbv iota. change (drop 4 (buffer s)) with tail.
    pose proof (nulnul_erase tail 0) as E. pose proof (nulnul_count tail 0) as K. unfold tail in *. rewrite NT in *.
    destruct (find_nulnul_counted 0 (repeat 1 (N.to_nat (n - 4)))) as [o k]. cbn [fst snd] in *. subst o k. now rewrite LT. }
  assert (N : next c s = Val (Some (Err (UnterminatedStrings 0)), stopped_at 0 s)).
  { unfold next. rewrite <- next_raw_erase, R. reflexivity. }
  replace (n - 4) with (turns c s + 0) by (unfold turns; rewrite R; cbn [snd]; lia).
  assert (S1 : sane (stopped_at 0 s)) by (apply sane_stopped; [exact S0|lia]).
  eapply work_item; [exact N|]. assert (T : turns c (stopped_at 0 s) = 0) by (apply turns_none; [exact S1|cbn; lia]).
  rewrite <- T. eapply work_end. apply stopped_none; [exact S1|cbn; lia].
Qed.
Print Assumptions C78_announced_length_refuted.

(* Looking up a string by its number looks at each byte of the string area at most twice
   (once for the zero, once for UTF-8). *)
Theorem C78_string : forall r i, snd (find_string_counted r i) <= 2 * len (strings r).
Proof. exact find_string_count. Qed.
Print Assumptions C78_string.

(* Exactly: each byte of the strings up to the one looked for is looked at twice, each zero
   once. *)
Theorem C78_string_exactly : forall r before t rest, Forall good_string before -> good_string t ->
  strings r = terminated before ++ t ++ 0 :: rest ->
  snd (find_string_counted r (len before + 1)) + (len before + 1) = 2 * (len (terminated before) + (len t + 1)).
Proof. exact find_string_exactly. Qed.
Print Assumptions C78_string_exactly.

(* Searching an entry point looks at each paragraph at most once. *)
Theorem C78_search : forall b, 16 * snd (find_signature_counted 0 (chunks STRIDE b)) <= len b + 15.
Proof.
  intros b. pose proof (signature_count (chunks STRIDE b) 0). pose proof (chunks_count (length b) b ltac:(lia)).
  change STRIDE with 16 in *. lia.
Qed.
Print Assumptions C78_search.

(* It stops at the first anchor, and without one it looks at all paragraphs. *)
Theorem C78_search_exactly : forall b,
  (forall o k, first_anchor b o k -> 16 * snd (find_signature_counted 0 (chunks STRIDE b)) = o + 16) /\
  ((forall o k, ~ anchor_at b o k) -> len b <= 16 * snd (find_signature_counted 0 (chunks STRIDE b))).
Proof.
  intros b. split.
  - intros o k H. apply find_signature_first in H. apply (signature_count_found _ 0) in H. lia.
  - intros H. rewrite signature_count_none; [apply (chunks_enough (length b)); lia|].
    destruct (find_signature_loop 0 (chunks STRIDE b)) as [[k o]|] eqn:E; [|reflexivity].
    apply (find_signature_first b) in E. destruct E as [E _]. exfalso. eapply H, E.
Qed.
Print Assumptions C78_search_exactly.

Example C78_example :
  turns ex_cfg (structures (ex_v2 26) (table ex_list)) = 5 /\
  find_string_counted {| version := {| major := 2; minor := 7 |}; info := InfoType_OemStrings; length_ := 4; handle := 0;
    data := []; strings := [65; 66; 0; 67; 0; 0]; after := [] |} 2 = (Ok [67], 8) /\
  snd (find_signature_counted 0 (chunks STRIDE (repeat 0 40))) = 3.
Proof. split; [|split]; vm_compute; reflexivity. Qed.
(* the shipped file with a version 3 entry point, 48 zeros put before it *)
Example C78_search_example :
  first_anchor (repeat 0 48 ++ entry_v3_bin) 48 FmtV3 /\
  snd (find_signature_counted 0 (chunks STRIDE (repeat 0 48 ++ entry_v3_bin))) = 4.
Proof. split; [apply find_signature_first; vm_compute; reflexivity|vm_compute; reflexivity]. Qed.
