(* Property C102: what the other methods of the iterators give (count, last, collect, find,
   find_map, position, any, all, nth, and collecting results up to the first error).
   Vocabulary: Spec.v (runs: the items that the calls of next yield, and how they end),
   S_Methods.v (returns, at_the_end, first_such, returns_and_leaves), S_Write.v (tables written
   from values).  M_Methods.v has the methods, over any next. *)
From Coq Require Import String.
From Coq Require Import ZArith Lia ZifyBool ZifyNat ZifyN.
From Verif Require Import Base G_Enums M_Raw M_Strings M_Entry M_Memory M_Iter.
From Verif Require Import Spec S_Enums S_Iter S_Decode S_Lists S_Write.
From Verif Require Import L_Base L_Iter L_Lists L_Write P_System P_Iter P_Write P_Lookup P_Lists.
From Verif Require Import M_Methods S_Methods L_Methods.
Local Open Scope N_scope.

(* A method gives at most one answer. *)
Theorem C102_one_answer : forall S A (next : S -> out (option A * S)) c s,
  (forall a b, returns (fun t => count c next t s) a -> returns (fun t => count c next t s) b -> a = b) /\
  (forall a b, returns (fun t => last next t s) a -> returns (fun t => last next t s) b -> a = b) /\
  (forall a b, returns (fun t => collect next t s) a -> returns (fun t => collect next t s) b -> a = b) /\
  (forall p a b, returns (fun t => find next t p s) a -> returns (fun t => find next t p s) b -> a = b) /\
  (forall p a b, returns (fun t => position c next t p s) a -> returns (fun t => position c next t p s) b -> a = b) /\
  (forall p a b, returns (fun t => any next t p s) a -> returns (fun t => any next t p s) b -> a = b) /\
  (forall p a b, returns (fun t => all next t p s) a -> returns (fun t => all next t p s) b -> a = b) /\
  (forall B (f : A -> option B) a b, returns (fun t => find_map next t f s) a -> returns (fun t => find_map next t f s) b -> a = b).
Proof.
  intros S A next c s. destruct (methods_steady c next s) as (H1 & H2 & H3 & H4 & H5).
  split; [intros a b; apply steady_fun, H1|]. split; [intros a b; apply steady_fun, H2|]. split; [intros a b; apply steady_fun, H3|].
  split; [intros p a b; apply steady_fun, H4|]. split; [intros p a b; apply steady_fun, H4|].
  split; [intros p a b; apply steady_fun, H4|]. split; [intros p a b; apply steady_fun, H4|]. intros B f a b. apply steady_fun, H5.
Qed.
Print Assumptions C102_one_answer.
(* Those that take all items: their number, the last one, all of them. *)
Theorem C102_whole : forall S A (next : S -> out (option A * S)) c s l e, runs next s l e ->
  (len l < 2 ^ usize_bits c -> returns (fun t => count c next t s) (at_the_end e (fun _ => len l))) /\
  returns (fun t => last next t s) (at_the_end e (fun _ => hd_error (rev l))) /\
  returns (fun t => collect next t s) (at_the_end e (fun _ => l)).
Proof.
  intros S A next c s l e R. split; [apply count_returns, R|]. split; [apply last_returns, R|apply collect_returns, R].
Qed.
Print Assumptions C102_whole.
(* Those that look for an item give the first one, and leave the iterator right behind it:
   what comes next is what comes behind that item.  Without such an item they take all. *)
Theorem C102_find : forall S A (next : S -> out (option A * S)) s l e p, runs next s l e ->
  (forall before x rest, first_such p l before x rest -> returns_and_leaves next (fun t => find next t p s) (Some x) rest e) /\
  (none_such p l -> returns (fun t => find next t p s) (at_the_end e (fun s' => (None, s')))).
Proof. intros S A next s l e p R. split; [intros before x rest; apply find_found, R|apply find_nothing, R]. Qed.
Print Assumptions C102_find.
Theorem C102_find_map : forall S A B (next : S -> out (option A * S)) s l e (f : A -> option B), runs next s l e ->
  (forall before x rest b, l = before ++ x :: rest -> Forall (fun y => f y = None) before -> f x = Some b ->
    returns_and_leaves next (fun t => find_map next t f s) (Some b) rest e) /\
  (Forall (fun y => f y = None) l -> returns (fun t => find_map next t f s) (at_the_end e (fun s' => (None, s')))).
Proof. intros S A B next s l e f R. split; [intros before x rest b; apply find_map_found, R|apply find_map_nothing, R]. Qed.
Print Assumptions C102_find_map.
Theorem C102_position : forall S A (next : S -> out (option A * S)) c s l e p, runs next s l e -> len l < 2 ^ usize_bits c ->
  (forall before x rest, first_such p l before x rest ->
    returns_and_leaves next (fun t => position c next t p s) (Some (len before)) rest e) /\
  (none_such p l -> returns (fun t => position c next t p s) (at_the_end e (fun s' => (None, s')))).
Proof. intros S A next c s l e p R L. split; [intros before x rest; apply position_found; assumption|apply position_nothing; assumption]. Qed.
Print Assumptions C102_position.
Theorem C102_any_all : forall S A (next : S -> out (option A * S)) s l e p, runs next s l e ->
  (forall before x rest, first_such p l before x rest -> returns_and_leaves next (fun t => any next t p s) true rest e) /\
  (none_such p l -> returns (fun t => any next t p s) (at_the_end e (fun s' => (false, s')))) /\
  (forall before x rest, first_such (fun y => negb (p y)) l before x rest -> returns_and_leaves next (fun t => all next t p s) false rest e) /\
  (none_such (fun y => negb (p y)) l -> returns (fun t => all next t p s) (at_the_end e (fun s' => (true, s')))).
Proof.
  intros S A next s l e p R. split; [intros before x rest; apply any_found, R|]. split; [apply any_nothing, R|].
  split; [intros before x rest; apply all_found, R|apply all_nothing, R].
Qed.
Print Assumptions C102_any_all.
(* The n-th item, counted from zero. *)
Theorem C102_nth : forall S A (next : S -> out (option A * S)) s l e, runs next s l e ->
  (forall before x rest, l = before ++ x :: rest -> exists s', nth next (len before) s = Val (Some x, s') /\ runs next s' rest e) /\
  (forall n, len l <= n -> nth next n s = at_the_end e (fun s' => (None, s'))).
Proof.
  intros S A next s l e R. split; [intros before x rest ->; apply nth_there, R|intros n L; apply (nth_past next s l), L; exact R].
Qed.
Print Assumptions C102_nth.
(* Collecting results: all values, or the first error, behind which the iterator can be used
   further. *)
Theorem C102_results : forall S A E (next : S -> out (option (result E A) * S)) s e,
  (forall values, runs next s (map Ok values) e -> returns (fun t => collect_results next t s) (at_the_end e (fun s' => (Ok values, s')))) /\
  (forall values x rest, runs next s (map Ok values ++ Err x :: rest) e ->
    returns_and_leaves next (fun t => collect_results next t s) (Err x) rest e) /\
  (forall a b, returns (fun t => collect_results next t s) a -> returns (fun t => collect_results next t s) b -> a = b).
Proof.
  intros S A E next s e. split; [intros values; apply results_ok|]. split; [intros values x rest; apply results_error|].
  intros a b. apply steady_fun, results_steady.
Qed.
Print Assumptions C102_results.

(* Structures: all these methods come to an end on every table below 4 GiB, and counting the
   structures cannot overflow. *)
Theorem C102_structures : forall c s, sane s -> smbios_len_ s < 2 ^ 32 -> exists l e, runs (next c) s l e /\
  len l < 2 ^ usize_bits c /\ returns (fun t => count c (next c) t s) (at_the_end e (fun _ => len l)).
Proof.
  intros c s H L. destruct (runs_exists c s H) as [l [e [R B]]]. exists l, e. split; [exact R|].
  assert (Q : len l < 2 ^ usize_bits c).
  { assert (W : 2 ^ 32 <= 2 ^ usize_bits c) by (unfold usize_bits; destruct (pointer_width c); vm_compute; discriminate).
    change (2 ^ 32) with 4294967296 in *. destruct B as [->|B]; [cbn [len length]; unfold len; cbn [length]; lia|lia]. }
  split; [exact Q|]. apply count_returns; assumption.
Qed.
Print Assumptions C102_structures.
(* A table written from values: the methods give those values. *)
Theorem C102_written : forall c e rest ss ws,
  lays_out_table (ep_to_version e) rest ss ws -> Forall written_ok ws -> ends_last (ep_to_version e) ws ->
  ep_smbios_len e = len (table (map encoded ws)) -> all_bytes rest -> len (table (map encoded ws) ++ rest) + 260 <= 2 ^ 32 ->
  let s := structures e (table (map encoded ws) ++ rest) in
  (exists s', returns (fun t => collect_results (next c) t s) (Val (Ok ss, s'))) /\
  (forall B (f : Structure -> option B) before x more b, ss = before ++ x :: more ->
    Forall (fun y => f y = None) before -> f x = Some b ->
    exists s1 s2, returns (fun t => find_map (next c) t (fun i => match i with Ok y => f y | Err _ => None end) s) (Val (Some b, s1)) /\
      drains (next c) s1 (map Ok more) s2) /\
  (forall n, exists s', nth (next c) n s = Val (option_map Ok (nth_error ss (N.to_nat n)), s')).
Proof.
  intros c e rest ss ws L F E HL HB HS s. destruct (table_read_back c e rest ss ws L F E HL HB HS) as (s' & D & _).
  fold s in D. pose proof (proj1 (drains_runs _ _ _ _) D) as R. split; [|split].
  - exists s'. exact (results_ok (next c) s ss (Exhausted s') R).
  - intros B f before x more b -> FN FX. rewrite map_app in R. cbn [map] in R.
    destruct (find_map_found (next c) s _ _ (fun i => match i with Ok y => f y | Err _ => None end) (map Ok before) (Ok x) (map Ok more) b R eq_refl) as [s1 [Q1 Q2]].
    + apply Forall_map. exact FN.
    + exact FX.
    + exists s1, s'. split; [exact Q1|]. apply drains_runs, Q2.
  - intros n. destruct (N.lt_ge_cases n (len ss)) as [I|I].
    + destruct (nth_error ss (N.to_nat n)) as [x|] eqn:X; [|apply nth_error_None in X; unfold len in I; lia].
      destruct (nth_error_split _ _ X) as [before [more [-> LB]]]. rewrite map_app in R. cbn [map] in R.
      destruct (nth_there (next c) s (map Ok before) (Ok x) (map Ok more) _ R) as [s1 [Q _]]. exists s1.
      replace n with (len (map (@Ok MalformedStructureError Structure) before)); [exact Q|]. unfold len. rewrite map_length. lia.
    + replace (nth_error ss (N.to_nat n)) with (@None Structure) by (symmetry; apply nth_error_None; unfold len in I; lia).
      exists s'. rewrite (nth_past (next c) s (map Ok ss) (Exhausted s') n R); [reflexivity|]. unfold len in *. rewrite map_length. lia.
Qed.
Print Assumptions C102_written.
(* find_string is nth on the strings of the structure. *)
Theorem C102_find_string : forall r i, 0 < i -> exists s',
  nth (lift_next strings_next) (i - 1) (raw_strings r) = Val (match find_string r i with Ok t => Some t | Err _ => None end, s').
Proof.
  intros r i H. unfold find_string. replace (i =? 0) with false by lia. unfold nth. generalize (N.to_nat (i - 1)) (raw_strings r).
  induction n as [|n IH]; intros s; cbn [advance_by strings_nth].
  - unfold obind, lift_next. destruct (strings_next s) as [[t|] s']; exists s'; reflexivity.
  - specialize (IH (snd (strings_next s))). unfold obind, lift_next in *. destruct (strings_next s) as [[t|] s']; [exact IH|exists s'; reflexivity].
Qed.
Print Assumptions C102_find_string.
(* "the methods come to an end" is false of the languages of a BIOS: with 255 strings or more, in
   a build that does not check for overflow, they never do. *)
Theorem C102_languages_refuted : forall c r l, strings_of (strings r) l -> 255 <= len l -> overflow_checks c = false ->
  never_returns (fun t => count c (InstallableLanguages_next c) t (langs r 1)) /\
  never_returns (fun t => last (InstallableLanguages_next c) t (langs r 1)) /\
  never_returns (fun t => collect (InstallableLanguages_next c) t (langs r 1)).
Proof.
  intros c r l HS HL HC. pose proof (langs_cycle c r l HS HL HC) as C.
  destruct l as [|x l]; [unfold len in HL; cbn [length] in HL; lia|].
  change (take 255 (x :: l) ++ [[]]) with (x :: (firstn 254 l ++ [[]])) in C.
  apply (count_never _ c _ x (firstn 254 l ++ [[]]) HC C).
Qed.
Print Assumptions C102_languages_refuted.

(* ------------------------------------------------------------------ examples *)

(* A table with a mapped address range, a memory array, a structure that says it has three strings and
   has none (an error), and another address range. *)
Definition ex_four : Structures :=
  structures (ex_v22 58) (table (map encoded [ex_mapped; ex_array]) ++ [12; 5; 0; 1; 3; 0; 0] ++ table (map encoded [ex_mapped])).
Definition ex_is (k : N) (x : res Structure) : bool :=
  match x with Ok (SMemoryArrayMappedAddress _) => k =? 19 | Ok (SPhysicalMemoryArray _) => k =? 16 | Err _ => k =? 255 | _ => false end.
Definition ex_at (i : N) : Structures :=
  {| smbios_version := smbios_version ex_four; smbios_len_ := smbios_len_ ex_four; idx := i; buffer := buffer ex_four |}.
Ltac turns5 := exists 5%nat; vm_compute; reflexivity.
Example C102_example : sane ex_four /\ smbios_len_ ex_four < 2 ^ 32 /\
  (exists l s', runs (next ex_cfg) ex_four l (Exhausted s') /\ len l = 4) /\
  returns (fun t => count ex_cfg (next ex_cfg) t ex_four) (Val 4) /\
  returns (fun t => any (next ex_cfg) t (ex_is 255) ex_four) (Val (true, ex_at 41)) /\
  returns (fun t => all (next ex_cfg) t (ex_is 19) ex_four) (Val (false, ex_at 34)) /\
  returns (fun t => position ex_cfg (next ex_cfg) t (ex_is 255) ex_four) (Val (Some 2, ex_at 41)) /\
  (exists x, returns (fun t => find (next ex_cfg) t (ex_is 16) ex_four) (Val (Some x, ex_at 34)) /\ ex_is 16 x = true) /\
  (exists x, nth (next ex_cfg) 3 ex_four = Val (Some x, ex_at 58) /\ ex_is 19 x = true) /\
  (exists s, nth (next ex_cfg) 4 ex_four = Val (None, s)) /\
  (exists b, returns (fun t => collect_results (next ex_cfg) t ex_four) (Val (Err b, ex_at 41))).
Proof.
  split; [apply L_Frame.sane_structures; [apply all_bytes_dec; vm_compute; reflexivity|vm_compute; discriminate]|].
  split; [vm_compute; reflexivity|].
  split.
  { eexists _, _. split.
    - do 4 (eapply runs_some; [vm_compute; reflexivity|]). eapply runs_none. vm_compute. reflexivity.
    - reflexivity. }
  split; [turns5|]. split; [turns5|]. split; [turns5|]. split; [turns5|].
  split; [eexists; split; [turns5|reflexivity]|].
  split; [eexists; split; [vm_compute; reflexivity|reflexivity]|].
  split; [eexists; vm_compute; reflexivity|]. eexists. turns5.
Qed.
Example C102_written_example : exists ss,
  lays_out_table (ep_to_version (ex_v22 34)) [1] ss [ex_mapped; ex_array] /\ len ss = 2.
Proof.
  eexists. split.
  - apply lays_more; [|apply lays_more; [|apply lays_none]].
    + exact (lays_array_mapped _ _ 0 1023 4096 1 0 0).
    + refine (lays_array _ _ 3 3 6 1024 65534 2 0 _). right. split; [reflexivity|vm_compute; discriminate].
  - reflexivity.
Qed.
Example C102_find_string_example : find_string ex_many 299 = Ok [65] /\
  (exists s', nth (lift_next strings_next) 298 (raw_strings ex_many) = Val (Some [65], s')).
Proof. split; [vm_compute; reflexivity|]. eexists. vm_compute. reflexivity. Qed.
