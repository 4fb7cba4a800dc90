(* C91: structures that differ only in their strings. *)
From Coq Require Import String ZArith Lia ZifyBool ZifyNat ZifyN.
From Verif Require Import Base G_Enums M_Raw M_Entry M_PortConnector M_MemoryDevice M_PortableBattery M_Iter.
From Verif Require Import Spec S_Iter S_Decode S_Origin S_Reworded L_Base L_Strings L_Iter L_Reworded P_System P_Iter.
Local Open Scope N_scope.

(* Decoding does not look at what the strings say: give a structure other strings with
   the same numbers, and decoding succeeds, fails or panics as before, an error is the
   same one, and a value is the same apart from its texts.  Each text is the string that
   has the same number as the text that was there before. *)
Theorem C91_texts : forall c r ss aft, flat_memory c = false -> same_numbers r (reworded ss aft r) ->
  same_course (same_item (translated r (reworded ss aft r))) (dispatch c r) (dispatch c (reworded ss aft r)).
Proof. intros c r ss aft HF HN. exact (dispatch_reworded c r ss aft HN HF). Qed.
Print Assumptions C91_texts.

(* Changing one string t of a structure to t' changes only fields that showed t. *)
Theorem C91_one_string : forall c r before t t' behind aft x, flat_memory c = false ->
  Forall good_string (before ++ t :: behind) -> good_string t' -> strings r = encode_strings (before ++ t :: behind) ->
  dispatch c r = Val (Ok x) ->
  exists y, dispatch c (reworded (encode_strings (before ++ t' :: behind)) aft r) = Val (Ok y) /\
    without_texts x = without_texts y /\
    Forall2 (fun a b => a = b \/ a = t /\ b = t') (shown_texts x) (shown_texts y).
Proof.
  intros c r before t t' behind aft x HF HG HT HS HX.
  set (r' := reworded (encode_strings (before ++ t' :: behind)) aft r).
  assert (HG' : Forall good_string (before ++ t' :: behind)).
  { apply Forall_app in HG. destruct HG as [G1 G2]. inversion G2; subst. apply Forall_app. split; [exact G1|constructor; assumption]. }
  assert (HN : same_numbers r r').
  { apply (written_numbers r r' _ _ HG HG'); [rewrite !app_length; reflexivity|exact HS|reflexivity]. }
  pose proof (dispatch_reworded c r (encode_strings (before ++ t' :: behind)) aft HN HF) as H. rewrite HX in H. fold r' in H.
  destruct (dispatch c r') as [[y|]| |]; try contradiction. destruct H as [H1 H2]. exists y. split; [reflexivity|]. split; [exact H1|].
  clear H1 HX. revert H2. generalize (shown_texts x) (shown_texts y). induction 1 as [|a b la lb HA _ IH]; constructor; [|exact IH].
  destruct (written_place r r' _ _ a b HG HG' HS eq_refl HA) as [[-> ->]|[i [A B]]]; [left; reflexivity|].
  destruct (Nat.lt_total i (length before)) as [L|[E|L]].
  - rewrite nth_error_app1 in A, B by exact L. left. congruence.
  - subst i. rewrite nth_error_app2, Nat.sub_diag in A, B by lia. injection A as ->. injection B as ->. right. split; reflexivity.
  - rewrite nth_error_app2 in A, B by lia. replace (i - length before)%nat with (S (i - length before - 1))%nat in A, B by lia.
    left. cbn [nth_error] in A, B. congruence.
Qed.
Print Assumptions C91_one_string.

(* The same for whole tables: every structure s gets other strings, as many as it had. *)
Theorem C91_tables : forall c ep (l : list (encodable * list text)) rest xs,
  let v := ep_to_version ep in
  let other_table := map (fun p => translation (fst p) (snd p)) l in
  flat_memory c = false ->
  Forall (fun p => encodable_ok (translation (fst p) (snd p)) /\ Forall good_string (e_strings (fst p)) /\
    Forall good_string (snd p) /\ length (e_strings (fst p)) = length (snd p)) l ->
  ep_smbios_len ep = len (table other_table) ->
  all_bytes (table other_table ++ rest) -> len (table other_table ++ rest) + 260 <= 2 ^ 32 ->
  Forall2 (fun r x => dispatch c r = Val x) (shown v (map fst l) rest) xs ->
  exists ys s', drains (next c) (structures ep (table other_table ++ rest)) ys s' /\
    length ys = length xs /\
    forall i p x y, nth_error l i = Some p -> nth_error xs i = Some x -> nth_error ys i = Some y ->
      same_item (fun a b => without_texts a = without_texts b /\
        Forall2 (same_place (e_strings (fst p)) (snd p)) (shown_texts a) (shown_texts b)) x y.
Proof.
  intros c ep l rest xs v lt HF HO HL HA HB HX.
  assert (HG : Forall (fun p => Forall good_string (e_strings (fst p)) /\ Forall good_string (snd p) /\
    length (e_strings (fst p)) = length (snd p)) l) by (eapply Forall_impl; [|exact HO]; intros p [_ H]; exact H).
  destruct (translated_table c v rest l HF HG xs HX) as [ys [HY [HN HR]]].
  destruct (drains_table c ep lt rest ys) as [s' [D _]]; [|exact HL|exact HA|exact HB|exact HY|].
  - apply Forall_map. eapply Forall_impl; [|exact HO]. intros p [H _]. exact H.
  - exists ys, s'. split; [exact D|]. split; [exact HN|exact HR].
Qed.
Print Assumptions C91_tables.

(* Strings that are appended to those of a structure change nothing in its fields. *)
Theorem C91_appended : forall c r ss aft x, flat_memory c = false -> more_strings r ss -> no_dangling r ->
  dispatch c r = Val (Ok x) ->
  exists y, dispatch c (reworded ss aft r) = Val (Ok y) /\ without_lists x = without_lists y.
Proof. intros c r ss aft x HF HM HD. exact (dispatch_more c r ss aft HF HM HD x). Qed.
Print Assumptions C91_appended.

(* Without [no_dangling] this is false: the date of a battery can change, and the options
   of a system can become undecodable. *)
Theorem C91_appended_refuted : exists c r1 r2 ss x1 y1 x2, flat_memory c = false /\
  more_strings r1 ss /\ dispatch c r1 = Val (Ok (SPortableBattery x1)) /\ dispatch c (reworded ss [] r1) = Val (Ok (SPortableBattery y1)) /\
  battery_manufacture_date x1 = MD_SmartBatteryDataSpecification 2000 1 1 /\ battery_manufacture_date y1 = MD_Basic [65] /\
  more_strings r2 ss /\ dispatch c r2 = Val (Ok x2) /\
  dispatch c (reworded ss [] r2) = Val (Err (InvalidStringIndex InfoType_SystemConfigurationOptions 7 0)).
Proof.
  exists ex_strict, (reworded [0; 0] [] (ex_struct 2 8 InfoType_PortableBattery [0; 0; 1; 0; 0; 1; 0; 0; 0; 0; 0; 0; 0; 0; 0x21; 0x28; 0; 0; 0; 0; 0; 0] [])),
    (reworded [0; 0] [] (ex_struct 2 8 InfoType_SystemConfigurationOptions [0] [])), [65; 0; 0].
  do 3 eexists. split; [reflexivity|].
  assert (HM : forall r, strings r = [0; 0] -> more_strings r [65; 0; 0]).
  { intros r HR k t H. exfalso. rewrite HR in H. destruct H as [b [rest [_ [HB [[HN [H0 _]] [HA _]]]]]].
    destruct b as [|s b]; cbn [terminated map concat app] in HA.
    - destruct t as [|z t]; [apply HN; reflexivity|]. injection HA as HA _. apply H0. left. symmetry. exact HA.
    - inversion HB as [|? ? [G1 [G2 _]] _]; subst. destruct s as [|z s]; [apply G1; reflexivity|].
      injection HA as HA _. apply G2. left. symmetry. exact HA. }
  split; [apply HM; reflexivity|]. split; [vm_compute; reflexivity|]. split; [vm_compute; reflexivity|].
  split; [reflexivity|]. split; [reflexivity|]. split; [apply HM; reflexivity|]. split; [vm_compute; reflexivity|].
  vm_compute; reflexivity.
Qed.
Print Assumptions C91_appended_refuted.

(* Where memory past a slice can be read, a short structure takes its strings for
   fields: another string, another connector. *)
Theorem C91_readable_refuted : exists c r x ss aft y, flat_memory c = true /\ same_numbers r (reworded ss aft r) /\
  dispatch c r = Val (Ok (SPortConnector x)) /\ dispatch c (reworded ss aft r) = Val (Ok (SPortConnector y)) /\
  port_port_type x <> port_port_type y.
Proof.
  pose (s := {| e_type := 8; e_handle := 7; e_body := [0; 1; 0; 2]; e_strings := [[16]] |}).
  pose (v := {| major := 3; minor := 0 |}).
  exists {| overflow_checks := true; flat_memory := true; pointer_width := W64 |}, (raw_of v s []).
  eexists. exists (encode_strings [[17]]), (encode_strings [[17]] ++ []). eexists. split; [reflexivity|]. split.
  { assert (G : forall n, 0 < n < 128 -> Forall good_string [[n]]).
    { intros n H. constructor; [|constructor]. split; [discriminate|]. split; [intros [E|[]]; lia|].
      exists [n]. split; [constructor; [unfold scalar; lia|constructor]|]. cbn. unfold utf8_encode.
      destruct (N.ltb_spec n 0x80); [reflexivity|lia]. }
    apply (written_numbers _ _ [[16]] [[17]]); [apply G; lia|apply G; lia|reflexivity|reflexivity|reflexivity]. }
  split; [vm_compute; reflexivity|]. split; [vm_compute; reflexivity|]. vm_compute. discriminate.
Qed.
Print Assumptions C91_readable_refuted.

(* ------------------------------------------------------------------ examples *)

Lemma plain_good t : t <> [] -> forallb (fun b => (0 <? b) && (b <? 128)) t = true -> good_string t.
Proof.
  intros HN H. split; [exact HN|]. rewrite forallb_forall in H. split; [intros I; specialize (H 0 I); discriminate|].
  exists t. split; [apply Forall_forall; intros b I; specialize (H b I); unfold scalar; lia|].
  clear HN. induction t as [|b t IH]; [reflexivity|]. cbn [flat_map]. rewrite <- IH by (intros x I; apply H; right; exact I).
  specialize (H b (or_introl eq_refl)). unfold utf8_encode. destruct (N.ltb_spec b 0x80); [reflexivity|lia].
Qed.

(* the product name of a system is changed, and nothing else *)
Example C91_one_string_example :
  let r := ex_struct 2 0 InfoType_System [1; 2; 3; 0] [] in
  exists x y, strings r = encode_strings [[65]; [66; 67]; [68]] /\ Forall good_string [[65]; [66; 67]; [68]] /\ good_string [90; 90; 90] /\
    dispatch ex_strict r = Val (Ok x) /\ dispatch ex_strict (reworded (encode_strings [[65]; [90; 90; 90]; [68]]) [] r) = Val (Ok y) /\
    shown_texts x = [[65]; [66; 67]; [68]; []] /\ shown_texts y = [[65]; [90; 90; 90]; [68]; []].
Proof.
  cbv zeta. do 2 eexists. split; [reflexivity|]. split.
  { repeat constructor; apply plain_good; (discriminate || reflexivity). }
  split; [apply plain_good; [discriminate|reflexivity]|]. split; [vm_compute; reflexivity|]. split; [vm_compute; reflexivity|]. split; reflexivity.
Qed.
(* a string is appended to a memory device that names all its own strings *)
Example C91_appended_example :
  let r := ex_struct 2 8 InfoType_MemoryDevice ([0; 1; 2; 0; 64; 0; 64; 0; 0; 16; 9; 0; 1; 2; 0x18; 0; 0; 64; 6; 3; 1; 2; 3; 0; 0; 0; 0; 0; 0; 0] ++ [0; 0; 0; 0; 0; 0; 0; 0; 0; 1]) [] in
  exists x y, more_strings r (encode_strings [[65]; [66; 67]; [68]; [70]]) /\ no_dangling r /\
    dispatch ex_strict r = Val (Ok x) /\ dispatch ex_strict (reworded (encode_strings [[65]; [66; 67]; [68]; [70]]) [] r) = Val (Ok y) /\
    x = y /\ len (shown_texts x) = 7.
Proof.
  cbv zeta. do 2 eexists. split.
  { intros k t H.
    assert (G : Forall good_string [[65]; [66; 67]; [68]]) by (repeat constructor; apply plain_good; (discriminate || reflexivity)).
    assert (G' : Forall good_string [[65]; [66; 67]; [68]; [70]]) by (repeat constructor; apply plain_good; (discriminate || reflexivity)).
    assert (K : k <> 0) by (destruct H as [? [? [E _]]]; lia).
    pose proof (written_number (ex_struct 2 8 InfoType_MemoryDevice [] []) _ k t G eq_refl) as W.
    assert (T : text_number (ex_struct 2 8 InfoType_MemoryDevice [] []) k t) by (right; split; [exact K|exact H]).
    apply W in T. destruct T as [[T _]|[_ T]]; [lia|].
    pose (q := reworded (encode_strings [[65]; [66; 67]; [68]; [70]]) [] (ex_struct 2 8 InfoType_MemoryDevice [] [])).
    pose proof (written_number q _ k t G' eq_refl) as W'.
    assert (T' : text_number q k t).
    { apply W'. right. split; [lia|]. destruct (N.to_nat (k - 1)) as [|[|[|[|]]]]; try discriminate; exact T. }
    destruct T' as [[T' _]|[_ T']]; [lia|exact T']. }
  split.
  { cbn [no_dangling ex_struct info]. vm_compute field. cbv iota. exists [65].
    apply (written_number _ [[65]; [66; 67]; [68]]); [repeat constructor; apply plain_good; (discriminate || reflexivity)|reflexivity|].
    right. split; reflexivity. }
  split; [vm_compute; reflexivity|]. split; [vm_compute; reflexivity|]. split; reflexivity.
Qed.
(* the OEM strings of a table are changed *)
Definition ex_words : list (encodable * list text) :=
  combine ex_list [[[72; 105]; [33; 33; 33]]; []; []].
Example C91_tables_example : exists xs,
  let v := ep_to_version (ex_v2 28) in let ot := map (fun p => translation (fst p) (snd p)) ex_words in
  ep_smbios_len (ex_v2 28) = len (table ot) /\
  Forall (fun p => encodable_ok (translation (fst p) (snd p)) /\ Forall good_string (e_strings (fst p)) /\
    Forall good_string (snd p) /\ length (e_strings (fst p)) = length (snd p)) ex_words /\
  all_bytes (table ot) /\ len xs = 3 /\
  Forall2 (fun r x => dispatch ex_strict r = Val x) (shown v (map fst ex_words) []) xs.
Proof.
  eexists [_; _; _]. cbv zeta. split; [vm_compute; reflexivity|]. split.
  { assert (G : forall ss, forallb (fun t => negb (len t =? 0) && forallb (fun b => (0 <? b) && (b <? 128)) t) ss = true -> Forall good_string ss).
    { intros ss H. rewrite forallb_forall in H. apply Forall_forall. intros t I. specialize (H t I). apply Bool.andb_true_iff in H. destruct H as [H1 H2].
      apply plain_good; [intros ->; discriminate|exact H2]. }
    assert (O : forall s ss, encodable_ok s -> Forall good_string ss -> encodable_ok (translation s ss)).
    { intros s ss [A [B [C _]]] H. split; [exact A|]. split; [exact B|]. split; [exact C|].
      eapply Forall_impl; [|exact H]. intros t [T1 [T2 _]]. split; assumption. }
    pose proof ex_list_ok as E. inversion E as [|? ? E1 E']; subst. inversion E' as [|? ? E2 E'']; subst. inversion E'' as [|? ? E3 _]; subst.
    repeat apply Forall_cons; [| | |constructor]; (split; [apply O; [assumption|apply G; reflexivity]|split; [apply G; reflexivity|split; [apply G; reflexivity|reflexivity]]]). }
  split; [apply all_bytes_dec; vm_compute; reflexivity|]. split; [reflexivity|repeat (constructor; [vm_compute; reflexivity|]); constructor].
Qed.
