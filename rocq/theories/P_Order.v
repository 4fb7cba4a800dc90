(* C92: tables whose structures are put in another order, added to or left out. *)
From Coq Require Import ZArith Lia ZifyBool ZifyNat ZifyN Permutation.
From Verif Require Import Base G_Enums M_Raw M_Entry M_Iter Spec S_Iter S_Table S_Order L_Base L_Iter L_Order P_Iter.
Local Open Scope N_scope.

Lemma just_alone c e ss items : flat_memory c = false -> announces_just e ss ->
  ((exists l s', drains (next c) (structures e (table ss)) l s' /\ map seen l = map seen items) <->
   Forall2 (gives_alone c (ep_to_version e)) ss items).
Proof.
  intros HF [HO [HE [HL [HB HS]]]]. pose proof (table_by_itself c e ss [] items HF HO HE HL) as T. rewrite app_nil_r in T. exact (T HB HS).
Qed.

Lemma as_many {A B} (P : A -> B -> Prop) l l' : Forall2 P l l' -> length l' = length l.
Proof. induction 1 as [|a b l l' _ _ IH]; [reflexivity|cbn; rewrite IH; reflexivity]. Qed.

(* Every structure is decoded by itself: iterating over a table comes to its end with
   certain items if and only if each item is, in order, the one that a table with only
   that structure gives.  Bytes behind the table do not matter. *)
Theorem C92_each_by_itself : forall c e ss rest items, flat_memory c = false ->
  announces_just e ss -> all_bytes rest -> len (table ss ++ rest) + 260 <= 2 ^ 32 ->
  ((exists l s', drains (next c) (structures e (table ss ++ rest)) l s' /\ map seen l = map seen items) <->
   Forall2 (gives_alone c (ep_to_version e)) ss items).
Proof.
  intros c e ss rest items HF [HO [HE [HL [HB _]]]] HR HS. apply table_by_itself; try assumption. apply all_bytes_app. split; assumption.
Qed.
Print Assumptions C92_each_by_itself.

(* The order of the structures only decides the order of the items. *)
Theorem C92_order : forall c e ss ss' items s, flat_memory c = false -> announces_just e ss -> Permutation ss ss' ->
  drains (next c) (structures e (table ss)) items s ->
  exists items' s', drains (next c) (structures e (table ss')) items' s' /\ Permutation (map seen items) (map seen items').
Proof.
  intros c e ss ss' items s HF HA HP HD.
  assert (HA' : announces_just e ss').
  { destruct HA as [HO [HE [HL [HB HS]]]]. rewrite (table_perm_len ss ss' HP) in HL, HS. split; [rewrite Forall_forall in *; intros x I; apply HO; apply (Permutation_in x (Permutation_sym HP)); exact I|].
    split; [apply (no_end_sub _ ss); [intros x I; apply (Permutation_in x (Permutation_sym HP)); exact I|exact HE]|]. split; [exact HL|].
    split; [|exact HS]. unfold all_bytes in *. rewrite Forall_forall in *. intros x I. apply HB, (Permutation_in x (Permutation_sym (table_perm ss ss' HP))), I. }
  assert (F : Forall2 (gives_alone c (ep_to_version e)) ss items) by (apply (just_alone c e ss items HF HA); exists items, s; split; [exact HD|reflexivity]).
  destruct (permuted_alone c _ ss ss' items HP F) as [items' [Q G]]. apply (just_alone c e ss' items' HF HA') in G. destruct G as [l [s' [D E]]].
  exists l, s'. split; [exact D|]. rewrite E. apply Permutation_map. exact Q.
Qed.
Print Assumptions C92_order.

(* Leaving a structure out removes its item and changes no other ... *)
Theorem C92_removed : forall c e e' l1 x l2 items s, flat_memory c = false ->
  announces_just e (l1 ++ x :: l2) -> ep_to_version e' = ep_to_version e -> ep_smbios_len e' = len (table (l1 ++ l2)) ->
  drains (next c) (structures e (table (l1 ++ x :: l2))) items s ->
  exists items1 i items2 items' s', items = items1 ++ i :: items2 /\ length items1 = length l1 /\ gives_alone c (ep_to_version e) x i /\
    drains (next c) (structures e' (table (l1 ++ l2))) items' s' /\ map seen items' = map seen (items1 ++ items2).
Proof.
  intros c e e' l1 x l2 items s HF HA HV HL HD.
  assert (F : Forall2 (gives_alone c (ep_to_version e)) (l1 ++ x :: l2) items) by (apply (just_alone c e _ items HF HA); exists items, s; split; [exact HD|reflexivity]).
  apply Forall2_app_inv_l in F. destruct F as [items1 [it [F1 [F2 ->]]]]. inversion F2 as [|? i ? items2 G F3]; subst.
  assert (HA' : announces_just e' (l1 ++ l2)).
  { destruct HA as [HO [HE [_ [HB HS]]]]. unfold table in HB, HS. rewrite map_app, concat_app in HB, HS. cbn [map concat] in HB, HS. rewrite !len_app in HS.
    apply all_bytes_app in HB. destruct HB as [B1 B2]. apply all_bytes_app in B2. destruct B2 as [_ B2].
    split; [apply Forall_app in HO; destruct HO as [O1 O2]; inversion O2; subst; apply Forall_app; split; assumption|].
    split; [rewrite HV; apply (no_end_sub _ (l1 ++ x :: l2)); [intros y I; apply in_app_iff in I; apply in_app_iff; cbn; tauto|exact HE]|].
    split; [exact HL|]. unfold table. rewrite map_app, concat_app. split; [apply all_bytes_app; split; assumption|rewrite len_app; lia]. }
  destruct (proj2 (just_alone c e' (l1 ++ l2) (items1 ++ items2) HF HA')) as [l [s' [D E]]]; [rewrite HV; apply Forall2_app; assumption|].
  exists items1, i, items2, l, s'. split; [reflexivity|]. split; [exact (as_many _ _ _ F1)|]. split; [exact G|]. split; [exact D|exact E].
Qed.
Print Assumptions C92_removed.

(* ... and adding one that decodes by itself adds its item at that place. *)
Theorem C92_added : forall c e e' l1 x l2 items i s, flat_memory c = false ->
  announces_just e' (l1 ++ x :: l2) -> announces_just e (l1 ++ l2) -> ep_to_version e' = ep_to_version e ->
  drains (next c) (structures e (table (l1 ++ l2))) items s -> gives_alone c (ep_to_version e) x i ->
  exists items1 items2 items' s', items = items1 ++ items2 /\ length items1 = length l1 /\
    drains (next c) (structures e' (table (l1 ++ x :: l2))) items' s' /\ map seen items' = map seen (items1 ++ i :: items2).
Proof.
  intros c e e' l1 x l2 items i s HF HA' HA HV HD HI.
  assert (F : Forall2 (gives_alone c (ep_to_version e)) (l1 ++ l2) items) by (apply (just_alone c e _ items HF HA); exists items, s; split; [exact HD|reflexivity]).
  apply Forall2_app_inv_l in F. destruct F as [items1 [items2 [F1 [F2 ->]]]].
  destruct (proj2 (just_alone c e' (l1 ++ x :: l2) (items1 ++ i :: items2) HF HA')) as [l [s' [D E]]].
  { rewrite HV. apply Forall2_app; [exact F1|constructor; assumption]. }
  exists items1, items2, l, s'. split; [reflexivity|]. split; [exact (as_many _ _ _ F1)|]. split; [exact D|exact E].
Qed.
Print Assumptions C92_added.

(* A structure that occurs twice in a table gives the same item both times. *)
Theorem C92_twice : forall c e ss items s n m x, flat_memory c = false -> announces_just e ss ->
  drains (next c) (structures e (table ss)) items s -> nth_error ss n = Some x -> nth_error ss m = Some x ->
  exists i j, nth_error items n = Some i /\ nth_error items m = Some j /\ seen i = seen j.
Proof.
  intros c e ss items s n m x HF HA HD HN HM.
  assert (F : Forall2 (gives_alone c (ep_to_version e)) ss items) by (apply (just_alone c e _ items HF HA); exists items, s; split; [exact HD|reflexivity]).
  assert (N : forall k, nth_error ss k = Some x -> exists i, nth_error items k = Some i /\ gives_alone c (ep_to_version e) x i).
  { clear -F. induction F as [|y i ss items H F IH]; intros [|k] E; try discriminate; [injection E as ->; exists i; split; [reflexivity|exact H]|exact (IH k E)]. }
  destruct (N n HN) as [i [I1 I2]]. destruct (N m HM) as [j [J1 J2]]. exists i, j.
  split; [exact I1|]. split; [exact J1|exact (alone_seen _ _ _ _ _ I2 J2)].
Qed.
Print Assumptions C92_twice.

(* The order does matter where a structure makes its decoder crash, which hides the
   structures behind it ... *)
Theorem C92_crash_refuted : exists a b l,
  Forall encodable_ok [a; b] /\
  runs (next ex_cfg) (structures (ex_v2 12) (table [a; b])) l Panicked /\ l <> [] /\
  runs (next ex_cfg) (structures (ex_v2 12) (table [b; a])) [] Panicked.
Proof.
  exists {| e_type := 200; e_handle := 7; e_body := []; e_strings := [] |}, {| e_type := 14; e_handle := 7; e_body := []; e_strings := [] |}.
  eexists. split; [repeat constructor; cbn; try lia; discriminate|].
  split; [eapply runs_some; [vm_compute; reflexivity|apply runs_panic; vm_compute; reflexivity]|].
  split; [discriminate|apply runs_panic; vm_compute; reflexivity].
Qed.
Print Assumptions C92_crash_refuted.

(* ... and, from version 3 on, where one of them is an End structure. *)
Theorem C92_end_refuted : exists a b l l' s s',
  Forall encodable_ok [a; b] /\
  drains (next ex_cfg) (structures (ex_v3 12) (table [a; b])) l s /\
  drains (next ex_cfg) (structures (ex_v3 12) (table [b; a])) l' s' /\ length l <> length l'.
Proof.
  exists {| e_type := 200; e_handle := 7; e_body := []; e_strings := [] |}, {| e_type := 127; e_handle := 9; e_body := []; e_strings := [] |}.
  do 4 eexists. split; [repeat constructor; cbn; try lia; discriminate|].
  split; [eapply drains_cons; [vm_compute; reflexivity|]; eapply drains_cons; [vm_compute; reflexivity|]; apply drains_nil; vm_compute; reflexivity|].
  split; [eapply drains_cons; [vm_compute; reflexivity|]; apply drains_nil; vm_compute; reflexivity|discriminate].
Qed.
Print Assumptions C92_end_refuted.

(* the table of P_Iter, read as version 2.7, and its structures the other way round;
   without the second structure; and with the first structure twice *)
Example C92_example : exists items s items' s', announces_just (ex_v2 26) ex_list /\
  Permutation ex_list (rev ex_list) /\ ex_list <> rev ex_list /\
  drains (next ex_cfg) (structures (ex_v2 26) (table ex_list)) items s /\ len items = 3 /\
  ep_to_version (ex_v2 17) = ep_to_version (ex_v2 26) /\ ep_smbios_len (ex_v2 17) = len (table (firstn 1 ex_list ++ skipn 2 ex_list)) /\
  announces_just (ex_v2 17) (firstn 1 ex_list ++ skipn 2 ex_list) /\
  announces_just (ex_v2 37) (ex_list ++ firstn 1 ex_list) /\
  drains (next ex_cfg) (structures (ex_v2 37) (table (ex_list ++ firstn 1 ex_list))) items' s' /\ len items' = 4 /\
  exists i, gives_alone ex_cfg (ep_to_version (ex_v2 26)) {| e_type := 200; e_handle := 7; e_body := [0; 0; 9]; e_strings := [] |} i.
Proof.
  assert (A : forall n ss, incl ss ex_list -> n = len (table ss) -> forallb (fun b => b <? 256) (table ss) = true -> n + 260 <= 2 ^ 32 -> announces_just (ex_v2 n) ss).
  { intros n ss H1 H2 H3 H4. split; [apply Forall_forall; intros x I; pose proof ex_list_ok as E; rewrite Forall_forall in E; apply E, H1, I|].
    split; [intros H; exfalso; revert H; vm_compute; intros H; apply H; reflexivity|]. split; [exact H2|].
    split; [apply all_bytes_dec; exact H3|rewrite <- H2; exact H4]. }
  do 4 eexists. split; [apply A; [apply incl_refl|vm_compute; reflexivity|vm_compute; reflexivity|vm_compute; discriminate]|].
  split; [apply Permutation_rev|]. split; [discriminate|].
  split; [do 3 (eapply drains_cons; [vm_compute; reflexivity|]); apply drains_nil; vm_compute; reflexivity|]. split; [reflexivity|]. split; [reflexivity|].
  split; [vm_compute; reflexivity|].
  split; [apply A; [intros x I; cbn [firstn skipn app In ex_list] in *; tauto|vm_compute; reflexivity|vm_compute; reflexivity|vm_compute; discriminate]|].
  split; [apply A; [intros x I; cbn [firstn skipn app In ex_list] in *; tauto|vm_compute; reflexivity|vm_compute; reflexivity|vm_compute; discriminate]|].
  split; [do 4 (eapply drains_cons; [vm_compute; reflexivity|]); apply drains_nil; vm_compute; reflexivity|]. split; [reflexivity|].
  do 3 eexists. split; [vm_compute; reflexivity|reflexivity].
Qed.
