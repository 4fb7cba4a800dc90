(* Property C96: reading on after damage to the division into structures.
   Vocabulary: S_Local.v (start, reaches), S_Resync.v (carries_on, raw_at), S_Iter.v
   (string_area, seen: an item without what lies behind it in memory). *)
From Coq Require Import ZArith Lia ZifyBool ZifyNat ZifyN.
From Verif Require Import Base G_Enums M_Raw M_Iter Spec S_Iter L_Base L_Iter L_After L_Frame P_Iter S_Local L_Local S_Resync L_Resync.
Local Open Scope N_scope.

(* Two buffers that differ in one stretch of bytes: once both iterations have come to the same
   place behind it, all that follows is the same. *)
Theorem C96_same_place_same_rest : forall c v n pre x x' post l s1 l' t1 l2 en,
  let s := start v n (pre ++ x ++ post) in
  let t := start v n (pre ++ x' ++ post) in
  sane s -> sane t -> len x = len x' ->
  reaches (next c) s l s1 -> carries_on v l -> reaches (next c) t l' t1 -> carries_on v l' ->
  idx s1 = idx t1 -> len (pre ++ x) <= idx s1 ->
  runs (next c) s1 l2 en -> exists en', runs (next c) t1 l2 en' /\ seen_ending en' = seen_ending en.
Proof. exact same_place. Qed.
Print Assumptions C96_same_place_same_rest.

(* Bytes that held any number of structures and now read as one: that one is seen in place of
   the items lx, and nothing else changes. *)
Theorem C96_one_in_place_of_many : forall c v n pre x k h0 h1 body area post l0 s0 lx s1 l2 en,
  flat_memory c = false ->
  let s := start v n (pre ++ x ++ post) in
  let t := start v n (pre ++ ([k; 4 + len body; h0; h1] ++ body ++ area) ++ post) in
  sane s -> sane t -> len x = 4 + len body + len area -> string_area area ->
  len pre + 4 + len body < n -> (3 <= major v -> InfoType_from k <> InfoType_End) ->
  reaches (next c) s l0 s0 -> idx s0 = len pre -> reaches (next c) s0 lx s1 -> idx s1 = len (pre ++ x) ->
  carries_on v (l0 ++ lx) -> runs (next c) s1 l2 en ->
  exists l0', map seen l0' = map seen l0 /\
  match dispatch c (raw_at v k h0 h1 body area post) with
  | Val i => exists en', runs (next c) t (l0' ++ i :: l2) en' /\ seen_ending en' = seen_ending en
  | Panic => runs (next c) t l0' Panicked
  | UB => runs (next c) t l0' Undefined
  end.
Proof. exact swallowed. Qed.
Print Assumptions C96_one_in_place_of_many.

(* A wrong length byte l' for l: if the first two zero bytes from the new end on are the last
   ones of [rest], which may reach over following structures, the iteration is in step again
   behind them. *)
Theorem C96_length_byte : forall c v n pre k l l' h0 h1 rest post l0 s0 lx s1 l2 en,
  flat_memory c = false ->
  let s := start v n (pre ++ ([k; l; h0; h1] ++ rest) ++ post) in
  let t := start v n (pre ++ ([k; l'; h0; h1] ++ rest) ++ post) in
  sane s -> sane t -> 4 <= l' -> string_area (drop (l' - 4) rest) ->
  len pre + l' < n -> (3 <= major v -> InfoType_from k <> InfoType_End) ->
  reaches (next c) s l0 s0 -> idx s0 = len pre -> reaches (next c) s0 lx s1 -> idx s1 = len (pre ++ [k; l; h0; h1] ++ rest) ->
  carries_on v (l0 ++ lx) -> runs (next c) s1 l2 en ->
  exists l0', map seen l0' = map seen l0 /\
  match dispatch c (raw_at v k h0 h1 (take (l' - 4) rest) (drop (l' - 4) rest) post) with
  | Val i => exists en', runs (next c) t (l0' ++ i :: l2) en' /\ seen_ending en' = seen_ending en
  | Panic => runs (next c) t l0' Panicked
  | UB => runs (next c) t l0' Undefined
  end.
Proof. exact wrong_length. Qed.
Print Assumptions C96_length_byte.

(* A length byte that is too large, but not by more than the string area without its last two
   bytes: only this structure changes, whatever its bytes are. *)
Theorem C96_longer_inside : forall c v n pre k l' h0 h1 body area post l0 s0 i s1 l2 en,
  flat_memory c = false ->
  let s := start v n (pre ++ ([k; 4 + len body; h0; h1] ++ body ++ area) ++ post) in
  let t := start v n (pre ++ ([k; l'; h0; h1] ++ body ++ area) ++ post) in
  sane s -> sane t -> string_area area -> 4 + len body <= l' -> l' + 2 <= 4 + len body + len area ->
  len pre + l' < n -> (3 <= major v -> InfoType_from k <> InfoType_End) ->
  reaches (next c) s l0 s0 -> idx s0 = len pre -> next c s0 = Val (Some i, s1) ->
  carries_on v (l0 ++ [i]) -> runs (next c) s1 l2 en ->
  exists l0', map seen l0' = map seen l0 /\
  match dispatch c (raw_at v k h0 h1 (body ++ take (l' - 4 - len body) area) (drop (l' - 4 - len body) area) post) with
  | Val i' => exists en', runs (next c) t (l0' ++ i' :: l2) en' /\ seen_ending en' = seen_ending en
  | Panic => runs (next c) t l0' Panicked
  | UB => runs (next c) t l0' Undefined
  end.
Proof. exact longer_inside. Qed.
Print Assumptions C96_longer_inside.

(* The expectation that a wrong length byte only hides structures is false: one that is too
   small can show structures that are not in the table. *)
Definition ex_hiding (l : N) : list N := [200; l; 1; 0; 0; 0; 201; 6; 2; 0; 5; 5; 0; 0; 0; 0].
Theorem C96_only_hides_refuted : exists l s l' s' r,
  let v := {| major := 2; minor := 7 |} in
  drains (next ex_cfg) (start v 16 (ex_hiding 14)) l s /\ len l = 1 /\
  drains (next ex_cfg) (start v 16 (ex_hiding 4)) l' s' /\ nth_error l' 1 = Some (Ok (SOther r)) /\
  handle r = 2 /\ (forall q, In (Ok (SOther q)) l -> handle q <> 2).
Proof.
  do 5 eexists. split; [eapply drains_cons; [vm_compute; reflexivity|apply drains_nil; vm_compute; reflexivity]|].
  split; [reflexivity|].
  split; [eapply drains_cons; [vm_compute; reflexivity|eapply drains_cons; [vm_compute; reflexivity|apply drains_nil; vm_compute; reflexivity]]|].
  split; [reflexivity|]. split; [reflexivity|]. intros q [[= <-]|[]]. discriminate.
Qed.
Print Assumptions C96_only_hides_refuted.

(* the first length byte 11 instead of 4 joins the first two structures; the third one stays *)
Definition ex_three (l : N) : list N := ([200; l; 1; 0] ++ [0; 0; 201; 4; 2; 0; 65; 0; 0]) ++ [202; 4; 3; 0; 0; 0].
Example C96_example : exists lx s1 l2 s2 i l2' s3,
  let v := {| major := 2; minor := 7 |} in let s := start v 19 (ex_three 4) in
  sane s /\ sane (start v 19 (ex_three 11)) /\ string_area (drop (11 - 4) [0; 0; 201; 4; 2; 0; 65; 0; 0]) /\
  reaches (next ex_cfg) s lx s1 /\ len lx = 2 /\ idx s1 = 13 /\ carries_on v ([] ++ lx) /\
  runs (next ex_cfg) s1 l2 (Exhausted s2) /\ len l2 = 1 /\
  runs (next ex_cfg) (start v 19 (ex_three 11)) (i :: l2') (Exhausted s3) /\ l2' = l2.
Proof.
  do 7 eexists. split; [split; [apply all_bytes_dec; vm_compute; reflexivity|split; vm_compute; discriminate]|].
  split; [split; [apply all_bytes_dec; vm_compute; reflexivity|split; vm_compute; discriminate]|].
  split; [apply area_end with (a := [65; 0; 0]) (j := 1); [split; [exists [65]; reflexivity|]|vm_compute; discriminate]|].
  { intros x y E. destruct x as [|? [|? [|? x]]]; try discriminate E; [injection E; auto|].
    destruct x; try discriminate E. }
  split; [eapply reaches_on; [vm_compute; reflexivity|eapply reaches_on; [vm_compute; reflexivity|apply reaches_here]]|].
  split; [reflexivity|]. split; [reflexivity|]. split; [split; [intros H; exfalso; apply H; reflexivity|intros e [H|[H|[]]]; discriminate H]|].
  split; [eapply runs_some; [vm_compute; reflexivity|apply runs_none; vm_compute; reflexivity]|]. split; [reflexivity|].
  split; [eapply runs_some; [vm_compute; reflexivity|eapply runs_some; [vm_compute; reflexivity|apply runs_none; vm_compute; reflexivity]]|]. reflexivity.
Qed.
(* a length byte 6 instead of 4: the first text loses its two letters, the structure behind
   it is read as before *)
Example C96_longer_example : exists i s1 l2 s2 r,
  let v := {| major := 2; minor := 7 |} in
  let t l := start v 16 ([] ++ ([200; l; 1; 0] ++ [] ++ [65; 66; 0; 67; 0; 0]) ++ [202; 4; 3; 0; 0; 0]) in
  sane (t 4) /\ sane (t 6) /\ string_area [65; 66; 0; 67; 0; 0] /\ next ex_cfg (t 4) = Val (Some i, s1) /\ carries_on v ([] ++ [i]) /\
  runs (next ex_cfg) s1 l2 (Exhausted s2) /\ len l2 = 1 /\
  dispatch ex_cfg (raw_at v 200 1 0 [65; 66] [0; 67; 0; 0] [202; 4; 3; 0; 0; 0]) = Val (Ok (SOther r)) /\ data r = [65; 66].
Proof.
  do 5 eexists. split; [split; [apply all_bytes_dec; vm_compute; reflexivity|split; vm_compute; discriminate]|].
  split; [split; [apply all_bytes_dec; vm_compute; reflexivity|split; vm_compute; discriminate]|].
  split; [apply (terminated_area [[65; 66]; [67]]); [discriminate|]|].
  { repeat constructor; cbn [In]; try discriminate; intros H; decompose [or] H; try discriminate; contradiction. }
  split; [vm_compute; reflexivity|]. split; [split; [intros H; exfalso; apply H; reflexivity|intros e [H|[]]; discriminate H]|].
  split; [eapply runs_some; [vm_compute; reflexivity|apply runs_none; vm_compute; reflexivity]|]. split; [reflexivity|]. split; [vm_compute; reflexivity|reflexivity].
Qed.
