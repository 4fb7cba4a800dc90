(* Lemmas for C102: the provided methods of an iterator, by the items it yields. *)
From Coq Require Import ZArith Lia ZifyBool ZifyNat ZifyN.
From Verif Require Import Base G_Enums M_Raw M_Iter Spec S_Lists L_Base L_Iter M_Methods S_Methods.
Local Open Scope N_scope.

Lemma to_nat_len {A} (l : list A) : N.to_nat (len l) = length l.
Proof. unfold len. apply Nat2N.id. Qed.

(* what a loop body makes of a list of items, and the items it leaves *)
Fixpoint flows {A B R : Type} (f : B -> A -> out (flow B R)) (acc : B) (l : list A) : out (flow B R * list A) :=
  match l with
  | [] => Val (Continue acc, [])
  | x :: l => match f acc x with Val (Continue b) => flows f b l | Val (Break r) => Val (Break r, l) | Panic => Panic | UB => UB end
  end.

Lemma flows_ext {A B R} (f g : B -> A -> out (flow B R)) l : (forall b x, f b x = g b x) -> forall acc, flows f acc l = flows g acc l.
Proof. intros H. induction l as [|x l IH]; intros acc; [reflexivity|]. cbn [flows]. rewrite H. destruct (g acc x) as [[b|r]| |]; auto. Qed.

Section Loop.
Context {S A : Type} (next : S -> out (option A * S)).
Lemma try_fold_runs {B R} (f : B -> A -> out (flow B R)) l e : forall s acc, runs next s l e -> exists turns,
  match flows f acc l with
  | Val (Continue b, _) => try_fold next turns f acc s = Some (at_the_end e (fun s' => (Continue b, s')))
  | Val (Break r, rest) => exists s', try_fold next turns f acc s = Some (Val (Break r, s')) /\ runs next s' rest e
  | Panic => try_fold next turns f acc s = Some Panic
  | UB => try_fold next turns f acc s = Some UB
  end.
Proof.
  induction l as [|x l IH]; intros s acc H.
  - exists 1%nat. cbn [flows try_fold]. inversion H as [? ? E|? E|? E|]; subst; rewrite E; reflexivity.
  - inversion H as [| | |? ? s1 ? ? E R']; subst. cbn [flows]. destruct (f acc x) as [[b|r]| |] eqn:F.
    + destruct (IH s1 b R') as [t T]. exists (Datatypes.S t). cbn [try_fold]. rewrite E, F. exact T.
    + exists 1%nat. exists s1. cbn [try_fold]. rewrite E, F. auto.
    + exists 1%nat. cbn [try_fold]. rewrite E, F. reflexivity.
    + exists 1%nat. cbn [try_fold]. rewrite E, F. reflexivity.
Qed.
Lemma try_fold_steady {B R} (f : B -> A -> out (flow B R)) t : forall t' acc s o,
  try_fold next t f acc s = Some o -> (t <= t')%nat -> try_fold next t' f acc s = Some o.
Proof.
  induction t as [|t IH]; intros t' acc s o H L; [discriminate H|]. destruct t' as [|t']; [lia|].
  cbn [try_fold] in *. destruct (next s) as [[[x|] s']| |]; try exact H.
  destruct (f acc x) as [[b|r]| |]; try exact H. apply (IH t' b s' o H). lia.
Qed.
End Loop.

(* a method that has returned once returns the same whenever it may go on longer *)
Definition steady {X} (m : nat -> option (out X)) : Prop := forall t t' o, m t = Some o -> (t <= t')%nat -> m t' = Some o.
Lemma steady_fun {X} (m : nat -> option (out X)) a b : steady m -> returns m a -> returns m b -> a = b.
Proof.
  intros H [t T] [u U]. destruct (Nat.le_ge_cases t u) as [L|L].
  - rewrite (H t u a T L) in U. injection U as ->. reflexivity.
  - rewrite (H u t b U L) in T. injection T as ->. reflexivity.
Qed.
Lemma then_steady {X Y} (m : nat -> option (out X)) (f : X -> Y) : steady m -> steady (fun t => then_ (m t) f).
Proof.
  intros H t t' o E L. destruct (m t) as [a|] eqn:M; [|discriminate E]. rewrite (H t t' a M L). exact E.
Qed.
Lemma then_returns {X Y} (m : nat -> option (out X)) (f : X -> Y) o : returns m o ->
  returns (fun t => then_ (m t) f) (match o with Val x => Val (f x) | Panic => Panic | UB => UB end).
Proof. intros [t T]. exists t. rewrite T. reflexivity. Qed.
Lemma at_the_end_then {S X Y} (e : ending S) (x : S -> X) (f : X -> Y) :
  match at_the_end e x with Val x => Val (f x) | Panic => Panic | UB => UB end = at_the_end e (fun s => f (x s)).
Proof. destruct e; reflexivity. Qed.

Section Methods.
Context {S A : Type} (c : cfg) (next : S -> out (option A * S)).
Let tf_steady {B R} (f : B -> A -> out (flow B R)) acc s : steady (fun t => try_fold next t f acc s).
Proof. intros t t' o. apply try_fold_steady. Qed.
Lemma methods_steady s :
  steady (fun t => count c next t s) /\ steady (fun t => last next t s) /\ steady (fun t => collect next t s) /\
  (forall p, steady (fun t => find next t p s) /\ steady (fun t => position c next t p s) /\
    steady (fun t => any next t p s) /\ steady (fun t => all next t p s)) /\
  (forall B (f : A -> option B), steady (fun t => find_map next t f s)).
Proof.
  assert (T : forall B R X (f : B -> A -> out (flow B R)) acc (g : flow B R * S -> X), steady (fun t => then_ (try_fold next t f acc s) g))
    by (intros; apply then_steady, tf_steady).
  split; [apply T|]. split; [apply T|]. split; [apply T|]. split; [intros p; split; [apply T|]; split; [apply T|]; split; apply T|intros B f; apply T].
Qed.

(* folding a list when nothing breaks *)
Lemma flows_fold {B R} (f : B -> A -> out (flow B R)) (g : B -> A -> B) l : (forall b x, f b x = Val (Continue (g b x))) ->
  forall acc, flows f acc l = Val (Continue (fold_left g l acc), []).
Proof. intros H. induction l as [|x l IH]; intros acc; [reflexivity|]. cbn [flows fold_left]. rewrite H. apply IH. Qed.
Lemma fold_returns {B} (f : B -> A -> out B) init s l e b : runs next s l e ->
  flows (fun b x => match f b x with Val b => Val (@Continue B B b) | Panic => Panic | UB => UB end) init l = Val (Continue b, []) ->
  returns (fun t => fold next t f init s) (at_the_end e (fun _ => b)).
Proof.
  intros R F. destruct (try_fold_runs next (fun b x => match f b x with Val b => Val (@Continue B B b) | Panic => Panic | UB => UB end) l e s init R) as [t T].
  rewrite F in T. exists t. unfold fold. rewrite T. cbn [then_ option_map]. f_equal. destruct e; reflexivity.
Qed.
Lemma count_flows l : forall n, n + len l < 2 ^ usize_bits c ->
  flows (fun b (x : A) => match u_add c (usize_bits c) b 1 with Val b => Val (@Continue N N b) | Panic => Panic | UB => UB end) n l =
  Val (Continue (n + len l), []).
Proof.
  induction l as [|x l IH]; intros n H; cbn [flows].
  - rewrite len_nil, N.add_0_r. reflexivity.
  - rewrite len_cons in H. unfold u_add. replace (n + 1 <? 2 ^ usize_bits c) with true by lia. rewrite IH by lia.
    rewrite len_cons. do 3 f_equal. lia.
Qed.
Lemma count_returns s l e : runs next s l e -> len l < 2 ^ usize_bits c ->
  returns (fun t => count c next t s) (at_the_end e (fun _ => len l)).
Proof. intros R H. apply (fold_returns _ _ s l e _ R). apply (count_flows l 0 H). Qed.
Lemma last_fold l : forall acc : option A, fold_left (fun _ x => Some x) l acc = match rev l with x :: _ => Some x | [] => acc end.
Proof.
  induction l as [|x l IH]; intros acc; [reflexivity|]. cbn [fold_left rev]. rewrite IH. destruct (rev l); reflexivity.
Qed.
Lemma last_returns s l e : runs next s l e ->
  returns (fun t => last next t s) (at_the_end e (fun _ => hd_error (rev l))).
Proof.
  intros R. apply (fold_returns _ _ s l e _ R). rewrite (flows_fold _ (fun _ x => Some x)) by reflexivity.
  rewrite last_fold. destruct (rev l); reflexivity.
Qed.
Lemma collect_fold l : forall acc : list A, fold_left (fun b x => b ++ [x]) l acc = acc ++ l.
Proof. induction l as [|x l IH]; intros acc; cbn [fold_left]; [rewrite app_nil_r; reflexivity|]. rewrite IH, <- app_assoc. reflexivity. Qed.
Lemma collect_returns s l e : runs next s l e -> returns (fun t => collect next t s) (at_the_end e (fun _ => l)).
Proof.
  intros R. apply (fold_returns _ _ s l e _ R). rewrite (flows_fold _ (fun b x => b ++ [x])) by reflexivity.
  rewrite collect_fold. reflexivity.
Qed.

(* looking for something *)
Lemma flows_search {R} (p : A -> option R) l before x rest r : l = before ++ x :: rest -> Forall (fun y => p y = None) before -> p x = Some r ->
  flows (fun (_ : unit) y => Val (match p y with Some r => Break r | None => Continue tt end)) tt l = Val (Break r, rest).
Proof.
  intros -> F H. induction F as [|y before E F IH]; cbn [app flows]; [rewrite H; reflexivity|]. rewrite E. exact IH.
Qed.
Lemma flows_nothing {R} (p : A -> option R) l : Forall (fun y => p y = None) l ->
  flows (fun (_ : unit) y => Val (match p y with Some r => Break r | None => Continue tt end)) tt l = Val (Continue tt, []).
Proof. intros F. induction F as [|y l E F IH]; cbn [flows]; [reflexivity|]. rewrite E. exact IH. Qed.
Lemma search_found {R} (f : unit -> A -> out (flow unit R)) (p : A -> option R) s l e before x rest r :
  (forall u y, f u y = Val (match p y with Some r => Break r | None => Continue tt end)) ->
  runs next s l e -> l = before ++ x :: rest -> Forall (fun y => p y = None) before -> p x = Some r ->
  exists t s', try_fold next t f tt s = Some (Val (Break r, s')) /\ runs next s' rest e.
Proof.
  intros HF R' E F H. destruct (try_fold_runs next f l e s tt R') as [t T].
  assert (Q : flows f tt l = Val (Break r, rest)).
  { rewrite <- (flows_search p l before x rest r E F H). apply flows_ext, HF. }
  rewrite Q in T. exists t. exact T.
Qed.
Lemma search_nothing {R} (f : unit -> A -> out (flow unit R)) (p : A -> option R) s l e :
  (forall u y, f u y = Val (match p y with Some r => Break r | None => Continue tt end)) ->
  runs next s l e -> Forall (fun y => p y = None) l ->
  exists t, try_fold next t f tt s = Some (at_the_end e (fun s' => (Continue tt, s'))).
Proof.
  intros HF R' F. destruct (try_fold_runs next f l e s tt R') as [t T].
  assert (Q : flows f tt l = Val (Continue tt, [])).
  { rewrite <- (flows_nothing p l F). apply flows_ext, HF. }
  rewrite Q in T. exists t. exact T.
Qed.
Lemma as_option {R} (p : A -> bool) (g : A -> R) l : Forall (fun y => p y = false) l -> Forall (fun y => (if p y then Some (g y) else None) = None) l.
Proof. intros F. induction F as [|y l E F IH]; constructor; [rewrite E; reflexivity|exact IH]. Qed.

Lemma find_found s l e p before x rest : runs next s l e -> first_such p l before x rest ->
  returns_and_leaves next (fun t => find next t p s) (Some x) rest e.
Proof.
  intros R' [E [F H]].
  destruct (search_found (fun (_ : unit) x => Val (if p x then Break x else Continue tt)) (fun y => if p y then Some y else None) s l e before x rest x) as [t [s' [T Z]]];
    [intros u y; destruct (p y); reflexivity|exact R'|exact E|apply (as_option p (fun y => y)), F|rewrite H; reflexivity|].
  exists s'. split; [|exact Z]. exists t. unfold find. rewrite T. reflexivity.
Qed.
Lemma find_nothing s l e p : runs next s l e -> none_such p l ->
  returns (fun t => find next t p s) (at_the_end e (fun s' => (None, s'))).
Proof.
  intros R' F.
  destruct (search_nothing (fun (_ : unit) x => Val (if p x then Break x else Continue tt)) (fun y => if p y then Some y else None) s l e) as [t T];
    [intros u y; destruct (p y); reflexivity|exact R'|apply (as_option p (fun y => y)), F|].
  exists t. unfold find. rewrite T. destruct e; reflexivity.
Qed.
Lemma find_map_found {B} s l e (f : A -> option B) before x rest b : runs next s l e -> l = before ++ x :: rest ->
  Forall (fun y => f y = None) before -> f x = Some b ->
  returns_and_leaves next (fun t => find_map next t f s) (Some b) rest e.
Proof.
  intros R' E F H.
  destruct (search_found (fun (_ : unit) x => Val (match f x with Some b => Break b | None => Continue tt end)) f s l e before x rest b) as [t [s' [T Z]]];
    [reflexivity|exact R'|exact E|exact F|exact H|].
  exists s'. split; [|exact Z]. exists t. unfold find_map. rewrite T. reflexivity.
Qed.
Lemma find_map_nothing {B} s l e (f : A -> option B) : runs next s l e -> Forall (fun y => f y = None) l ->
  returns (fun t => find_map next t f s) (at_the_end e (fun s' => (None, s'))).
Proof.
  intros R' F.
  destruct (search_nothing (fun (_ : unit) x => Val (match f x with Some b => Break b | None => Continue tt end)) f s l e) as [t T];
    [reflexivity|exact R'|exact F|].
  exists t. unfold find_map. rewrite T. destruct e; reflexivity.
Qed.
Lemma any_found s l e p before x rest : runs next s l e -> first_such p l before x rest ->
  returns_and_leaves next (fun t => any next t p s) true rest e.
Proof.
  intros R' [E [F H]].
  destruct (search_found (fun (_ : unit) x => Val (if p x then Break tt else Continue tt)) (fun y => if p y then Some tt else None) s l e before x rest tt) as [t [s' [T Z]]];
    [intros u y; destruct (p y); reflexivity|exact R'|exact E|apply (as_option p (fun _ => tt)), F|rewrite H; reflexivity|].
  exists s'. split; [|exact Z]. exists t. unfold any. rewrite T. reflexivity.
Qed.
Lemma any_nothing s l e p : runs next s l e -> none_such p l ->
  returns (fun t => any next t p s) (at_the_end e (fun s' => (false, s'))).
Proof.
  intros R' F.
  destruct (search_nothing (fun (_ : unit) x => Val (if p x then Break tt else Continue tt)) (fun y => if p y then Some tt else None) s l e) as [t T];
    [intros u y; destruct (p y); reflexivity|exact R'|apply (as_option p (fun _ => tt)), F|].
  exists t. unfold any. rewrite T. destruct e; reflexivity.
Qed.
Lemma all_found s l e p before x rest : runs next s l e -> first_such (fun y => negb (p y)) l before x rest ->
  returns_and_leaves next (fun t => all next t p s) false rest e.
Proof.
  intros R' [E [F H]].
  destruct (search_found (fun (_ : unit) x => Val (if p x then Continue tt else Break tt)) (fun y => if negb (p y) then Some tt else None) s l e before x rest tt) as [t [s' [T Z]]];
    [intros u y; destruct (p y); reflexivity|exact R'|exact E|apply (as_option (fun y => negb (p y)) (fun _ => tt)), F|rewrite H; reflexivity|].
  exists s'. split; [|exact Z]. exists t. unfold all. rewrite T. reflexivity.
Qed.
Lemma all_nothing s l e p : runs next s l e -> none_such (fun y => negb (p y)) l ->
  returns (fun t => all next t p s) (at_the_end e (fun s' => (true, s'))).
Proof.
  intros R' F.
  destruct (search_nothing (fun (_ : unit) x => Val (if p x then Continue tt else Break tt)) (fun y => if negb (p y) then Some tt else None) s l e) as [t T];
    [intros u y; destruct (p y); reflexivity|exact R'|apply (as_option (fun y => negb (p y)) (fun _ => tt)), F|].
  exists t. unfold all. rewrite T. destruct e; reflexivity.
Qed.
Definition step_position (p : A -> bool) (i : N) (x : A) : out (flow N N) :=
  if p x then Val (Break i) else match u_add c (usize_bits c) i 1 with Val i => Val (Continue i) | Panic => Panic | UB => UB end.
Lemma position_flows p before : forall i x rest, Forall (fun y => p y = false) before -> p x = true -> i + len before < 2 ^ usize_bits c ->
  flows (step_position p) i (before ++ x :: rest) = Val (Break (i + len before), rest).
Proof.
  induction before as [|y before IH]; intros i x rest F H L; cbn [app flows]; unfold step_position at 1.
  - rewrite H, len_nil, N.add_0_r. reflexivity.
  - inversion F as [|? ? E F']; subst. rewrite E. rewrite len_cons in L. unfold u_add. replace (i + 1 <? 2 ^ usize_bits c) with true by lia.
    rewrite IH by (auto; lia). rewrite len_cons. do 3 f_equal. lia.
Qed.
Lemma position_nowhere p l : forall i, Forall (fun y => p y = false) l -> i + len l < 2 ^ usize_bits c ->
  flows (step_position p) i l = Val (Continue (i + len l), []).
Proof.
  induction l as [|y l IH]; intros i F L; cbn [flows]; [rewrite len_nil, N.add_0_r; reflexivity|]. unfold step_position at 1.
  inversion F as [|? ? E F']; subst. rewrite E. rewrite len_cons in L. unfold u_add. replace (i + 1 <? 2 ^ usize_bits c) with true by lia.
  rewrite IH by (auto; lia). rewrite len_cons. do 3 f_equal. lia.
Qed.
Lemma position_found s l e p before x rest : runs next s l e -> len l < 2 ^ usize_bits c -> first_such p l before x rest ->
  returns_and_leaves next (fun t => position c next t p s) (Some (len before)) rest e.
Proof.
  intros R' L [E [F H]]. destruct (try_fold_runs next (step_position p) l e s 0 R') as [t T]. subst l.
  rewrite len_app, len_cons in L. rewrite position_flows in T by (auto; lia).
  destruct T as [s' [T Z]]. exists s'. split; [|exact Z]. exists t. unfold position. change (fun i x => _) with (step_position p). rewrite T. reflexivity.
Qed.
Lemma position_nothing s l e p : runs next s l e -> len l < 2 ^ usize_bits c -> none_such p l ->
  returns (fun t => position c next t p s) (at_the_end e (fun s' => (None, s'))).
Proof.
  intros R' L F. destruct (try_fold_runs next (step_position p) l e s 0 R') as [t T]. rewrite position_nowhere in T by (auto; lia).
  exists t. unfold position. change (fun i x => _) with (step_position p). rewrite T. destruct e; reflexivity.
Qed.

Lemma advance_runs before : forall s rest e, runs next s (before ++ rest) e -> exists s', advance_by next (length before) s = Val (true, s') /\ runs next s' rest e.
Proof.
  induction before as [|y before IH]; intros s rest e R'; [exists s; auto|].
  cbn [app] in R'. inversion R' as [| | |? ? s1 ? ? E Q]; subst. cbn [length advance_by]. unfold obind. rewrite E. apply IH, Q.
Qed.
Lemma nth_there s before x rest e : runs next s (before ++ x :: rest) e ->
  exists s', nth next (len before) s = Val (Some x, s') /\ runs next s' rest e.
Proof.
  intros R'. destruct (advance_runs before s (x :: rest) e R') as [s1 [E Q]]. inversion Q as [| | |? ? s2 ? ? E2 Q2]; subst.
  exists s2. split; [|exact Q2]. unfold nth. rewrite to_nat_len. unfold obind. rewrite E. exact E2.
Qed.
Lemma advance_past l : forall s e n, runs next s l e -> (length l < n)%nat ->
  advance_by next n s = at_the_end e (fun s' => (false, s')).
Proof.
  induction l as [|y l IH]; intros s e n R' L; (destruct n as [|n]; [cbn [length] in L; lia|]); cbn [advance_by]; unfold obind.
  - inversion R' as [? ? E|? E|? E|]; subst; rewrite E; reflexivity.
  - inversion R' as [| | |? ? s1 ? ? E Q]; subst. rewrite E. apply IH; [exact Q|cbn [length] in L; lia].
Qed.
Lemma nth_past s l e n : runs next s l e -> len l <= n -> nth next n s = at_the_end e (fun s' => (None, s')).
Proof.
  intros R' L. unfold nth, obind. destruct (N.eq_dec (len l) n) as [<-|NE].
  - rewrite to_nat_len. rewrite <- (app_nil_r l) in R'. destruct (advance_runs l s [] e R') as [s1 [E Q]]. rewrite E.
    inversion Q as [? ? X|? X|? X|]; subst; rewrite X; reflexivity.
  - rewrite (advance_past l s e) by (auto; unfold len in *; lia). destruct e; reflexivity.
Qed.
End Methods.

Lemma results_flows {A E} (vs : list A) : forall acc (e : E) rest,
  flows (fun l (x : result E A) => Val (match x with Ok a => Continue (l ++ [a]) | Err e => Break e end)) acc (map Ok vs ++ Err e :: rest) = Val (Break e, rest) /\
  flows (fun l (x : result E A) => Val (match x with Ok a => Continue (l ++ [a]) | Err e => @Break _ E e end)) acc (map Ok vs) = Val (Continue (acc ++ vs), []).
Proof.
  induction vs as [|v vs IH]; intros acc e rest; cbn [map app flows]; [rewrite app_nil_r; split; reflexivity|].
  destruct (IH (acc ++ [v]) e rest) as [H1 H2]. rewrite H1, H2, <- app_assoc. split; reflexivity.
Qed.
Lemma results_error {S A E} (next : S -> out (option (result E A) * S)) s vs (x : E) rest e :
  runs next s (map Ok vs ++ Err x :: rest) e ->
  returns_and_leaves next (fun t => collect_results next t s) (Err x) rest e.
Proof.
  intros R. destruct (try_fold_runs next (fun l x => Val (match x with Ok a => Continue (l ++ [a]) | Err e => Break e end)) _ e s [] R) as [t T].
  rewrite (proj1 (results_flows vs [] x rest)) in T. destruct T as [s' [T Q]]. exists s'. split; [|exact Q].
  exists t. unfold collect_results. rewrite T. reflexivity.
Qed.
Lemma results_ok {S A E} (next : S -> out (option (result E A) * S)) s (vs : list A) e :
  runs next s (map Ok vs) e -> returns (fun t => collect_results next t s) (at_the_end e (fun s' => (Ok vs, s'))).
Proof.
  intros R. destruct (try_fold_runs next (fun l (x : result E A) => Val (match x with Ok a => Continue (l ++ [a]) | Err e => Break e end)) _ e s [] R) as [t T].
  assert (Q : forall acc, flows (fun l (x : result E A) => Val (match x with Ok a => Continue (l ++ [a]) | Err e => @Break _ E e end)) acc (map Ok vs) = Val (Continue (acc ++ vs), [])).
  { clear. induction vs as [|v vs IH]; intros acc; cbn [map flows]; [rewrite app_nil_r; reflexivity|]. rewrite IH, <- app_assoc. reflexivity. }
  rewrite Q in T. exists t. unfold collect_results. rewrite T. destruct e; reflexivity.
Qed.
Lemma results_steady {S A E} (next : S -> out (option (result E A) * S)) s : steady (fun t => collect_results next t s).
Proof. apply then_steady. intros t t' o. apply try_fold_steady. Qed.

(* going round in circles *)
Lemma cycle_none {S A B R} (next : S -> out (option A * S)) (f : B -> A -> out (flow B R)) s0 x l :
  steps next s0 (map Some (x :: l)) s0 -> (forall b y, exists b', f b y = Val (Continue b')) ->
  forall t acc, try_fold next t f acc s0 = None.
Proof.
  intros C F. assert (H : forall t acc s y m, steps next s (map Some (y :: m)) s0 -> try_fold next t f acc s = None).
  { induction t as [|t IH]; intros acc s y m Q; [reflexivity|]. cbn [map] in Q. inversion Q as [|? ? s1 ? ? E Q']; subst.
    cbn [try_fold]. rewrite E. destruct (F acc y) as [b' ->]. destruct m as [|z m].
    - cbn [map] in Q'. inversion Q'; subst. apply (IH b' s0 x l C).
    - apply (IH b' s1 z m Q'). }
  intros t acc. apply (H t acc s0 x l C).
Qed.
Lemma count_never {S A} (next : S -> out (option A * S)) c s x l : overflow_checks c = false ->
  steps next s (map Some (x :: l)) s ->
  never_returns (fun t => count c next t s) /\ never_returns (fun t => last next t s) /\ never_returns (fun t => collect next t s).
Proof.
  intros HC C. repeat split; intros t; [unfold count|unfold last|unfold collect]; unfold fold;
    rewrite (cycle_none next _ s x l C); try reflexivity; intros b y; try (eexists; reflexivity).
  unfold u_add. rewrite HC. destruct (b + 1 <? 2 ^ usize_bits c); eexists; reflexivity.
Qed.
