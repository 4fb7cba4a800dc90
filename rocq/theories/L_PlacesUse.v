(* Lemmas for C103: the places in tables, and that no byte of them can be left out. *)
From Coq Require Import ZArith Lia ZifyBool ZifyNat ZifyN.
From Coq Require Import String Ascii.
From Verif Require Import Base G_Enums M_Raw M_Iter M_Show Spec S_Iter S_Decode S_ShowFields S_Places L_Base L_Iter L_Frame L_Places P_System.
Ltac Zify.zify_post_hook ::= Z.div_mod_to_equations.
Local Open Scope N_scope.

Lemma split_at {A} (a b x y : list A) : len a = len x -> (a ++ b)%list = (x ++ y)%list -> a = x /\ b = y.
Proof.
  revert x. induction a as [|h a IH]; intros [|k x] HL E; unfold len in *; cbn [length] in HL; try lia; [split; [reflexivity|exact E]|].
  cbn in E. injection E as -> E. destruct (IH x ltac:(lia) E) as [-> ->]. split; reflexivity.
Qed.

Lemma framed_changed v pre ty l h0 h1 d d' rest r : len d = len d' -> l = 4 + len d ->
  framed v (pre ++ [ty; l; h0; h1] ++ d ++ rest) (len pre) r ->
  data r = d /\ info r = InfoType_from ty /\ version r = v /\ framed v (pre ++ [ty; l; h0; h1] ++ d' ++ rest) (len pre) (with_data d' r).
Proof.
  intros HD HLD [pre' [post [kind [g0 [g1 [E [HP [HL [HS [HI [HH [HV HF]]]]]]]]]]]].
  apply split_at in E as [<- E]; [|congruence]. apply split_at in E as [E1 E]; [|reflexivity]. injection E1 as <- E2 <- <-.
  apply split_at in E as [E3 E]; [|lia].
  split; [symmetry; exact E3|]. split; [exact HI|]. split; [exact HV|].
  exists pre, post, ty, h0, h1. unfold with_data. cbn [version info length_ handle data strings after].
  split; [rewrite <- E2, E; reflexivity|]. split; [reflexivity|]. split; [lia|]. auto 6.
Qed.

Lemma next_local c v n pre ty h0 h1 d d' rest D x y s t :
  let table e := (pre ++ [ty; 4 + len d; h0; h1] ++ e ++ rest)%list in
  let from e := {| smbios_version := v; smbios_len_ := n; idx := len pre; buffer := table e |} in
  all_bytes (table d) -> all_bytes (table d') -> len (table d) + 260 <= 2 ^ 32 -> differ_at D d d' ->
  next c (from d) = Val (Some (Ok x), s) -> next c (from d') = Val (Some (Ok y), t) ->
  idx t = idx s /\
  forall name ps a b, In (name, ps) (places v (InfoType_from ty)) -> untouched D ps ->
    field_of c x name a -> field_of c y name b -> a = b.
Proof.
  intros table from HB HB' HL HD NX NY.
  assert (HDL : len d = len d') by (destruct HD as [X _]; unfold len; lia).
  assert (HT : len (table d') = len (table d)) by (unfold table; rewrite !len_app; lia).
  assert (HP : len pre <= len (table d)) by (unfold table; rewrite !len_app; lia).
  assert (SX : sane (from d)) by (repeat split; unfold from; cbn [buffer idx]; [exact HB|lia|lia]).
  assert (SY : sane (from d')) by (repeat split; unfold from; cbn [buffer idx]; [exact HB'|lia|lia]).
  destruct (success_moves c _ x s SX NX) as [r [[FR [H1 H2]] [DX EX]]].
  destruct (success_moves c _ y t SY NY) as [r' [[FR' [H1' H2']] [DY EY]]].
  unfold from, table in FR, FR'. cbn [smbios_version buffer idx] in FR, FR'.
  destruct (framed_changed v pre ty _ h0 h1 d d' rest r HDL eq_refl FR) as [E1 [E2 [E3 FC]]].
  pose proof (framed_fun _ _ _ _ _ FR' FC) as ->.
  split.
  - assert (X : idx s = len pre + extent r) by (destruct EX as [[_ [_ ->]]|[_ ->]]; reflexivity).
    assert (Y : idx t = len pre + extent r) by (destruct EY as [[_ [_ ->]]|[_ ->]]; reflexivity). congruence.
  - intros name ps a b HI U FA FB. rewrite <- E2, <- E3 in HI. rewrite <- E1 in HD.
    exact (field_local c r d' D x y name ps a b HD DX DY HI U FA FB).
Qed.

(* ------------------------------------------------- every byte of the places matters *)

Fixpoint code_string (s : string) : list N :=
  match s with EmptyString => [] | String a s => N_of_ascii a :: code_string s end.
Definition plain : characters := {| printable := fun _ => true; extending := fun _ => false |}.
Fixpoint code (v : shown_as) : list N :=
  match v with
  | As_number n => [n]
  | As_text t => t
  | As_bool b => [if b then 1 else 0]
  | As_bytes l => l
  | As_uuid l => l
  | As_flags _ _ x => [x]
  | As_enum t => code_string (print plain false 0 t)
  | As_word s => code_string s
  | As_option None => []
  | As_option (Some v) => 1 :: code v
  | As_tuple name vs => code_string name ++ flat_map code vs
  | As_struct _ fs => flat_map (fun p => code (snd p)) fs
  end.
Fixpoint same (a b : list N) : bool :=
  match a, b with [], [] => true | x :: a, y :: b => (x =? y) && same a b | _, _ => false end.
Lemma same_refl a : same a a = true.
Proof. induction a as [|x a IH]; [reflexivity|]. cbn. rewrite N.eqb_refl. exact IH. Qed.

Definition replaced (k : N) (b : N) (l : list N) : list N := (take (k - 4) l ++ b :: drop (k - 3) l)%list.
Lemma replaced_differs k b l : 4 <= k -> k < 4 + len l -> differ_at (eq k) l (replaced k b l).
Proof.
  intros H1 H2. unfold replaced.
  assert (LT : length (take (k - 4) l) = N.to_nat (k - 4)) by (unfold take; rewrite firstn_length; unfold len in H2; lia).
  assert (E : l = (take (k - 4) l ++ drop (k - 4) l)%list) by (unfold take, drop; symmetry; apply firstn_skipn).
  assert (LD : length (drop (k - 4) l) = S (length (drop (k - 3) l))) by (unfold drop; rewrite !skipn_length; unfold len in H2; lia).
  split; [rewrite E at 1; rewrite !app_length; cbn [length]; lia|].
  intros i HI. rewrite E at 1. destruct (Nat.ltb_spec i (N.to_nat (k - 4))) as [L|L].
  - rewrite !nth_error_app1 by lia. reflexivity.
  - rewrite !nth_error_app2 by lia. rewrite LT. destruct (i - N.to_nat (k - 4))%nat as [|j] eqn:EJ; [exfalso; apply HI; lia|].
    change (nth_error (b :: drop (k - 3) l) (S j)) with (nth_error (drop (k - 3) l) j). rewrite !nth_error_drop. f_equal. lia.
Qed.

Definition assoc (name : string) (x : shown_as) : option shown_as :=
  match x with
  | As_tuple _ [As_struct _ fs] => option_map snd (find (fun p => String.eqb (fst p) name) fs)
  | _ => None
  end.
Lemma assoc_field c x name v : assoc name (Structure_contents c x) = Some v -> field_of c x name v.
Proof.
  destruct (Structure_contents c x) as [| | | | | | | | |case l|] eqn:E; try discriminate. destruct l as [|[| | | | | | | | | |type fs] [|]]; try discriminate.
  cbn [assoc]. destruct (find _ fs) as [[m w]|] eqn:F; [|discriminate]. cbn [option_map snd]. intros [= <-].
  apply find_some in F as [HI HE]. cbn [fst] in HE. apply String.eqb_eq in HE as ->.
  exists fs. split; [|exact HI]. exists case, type. exact E.
Qed.

Definition shown_field (r : RawStructure) (name : string) : option shown_as :=
  match dispatch ex_strict r with Val (Ok x) => assoc name (Structure_contents ex_strict x) | _ => None end.
Definition matters (r : RawStructure) (name : string) (k b : N) : bool :=
  (4 <=? k) && (k <? 4 + len (data r)) &&
  match shown_field r name, shown_field (with_data (replaced k b (data r)) r) name with
  | Some v, Some v' => negb (same (code v) (code v'))
  | _, _ => false
  end.
(* the bytes of the places *)
Definition bytes_of (ps : list place) : list N :=
  flat_map (fun p => match p with Bytes a n => map (fun i => a + N.of_nat i) (seq 0 (N.to_nat n)) | From _ => [] end) ps.
Lemma bytes_of_in ps a n k : In (Bytes a n) ps -> a <= k -> k < a + n -> In k (bytes_of ps).
Proof.
  intros HI H1 H2. unfold bytes_of. apply in_flat_map. exists (Bytes a n). split; [exact HI|]. apply in_map_iff.
  exists (N.to_nat (k - a)). split; [lia|]. apply in_seq. lia.
Qed.

Fixpoint set_at (k : nat) (b : N) (l : list N) : list N :=
  match l, k with [], _ => [] | _ :: l, O => b :: l | x :: l, S k => x :: set_at k b l end.
(* some bytes for each type: mostly 1, and special values where they make other bytes matter *)
Definition samples (i : InfoType) : list (list N) :=
  let ones n := repeat 1 n in
  match i with
  | InfoType_Bios => [ones 22%nat]
  | InfoType_System => [ones 23%nat]
  | InfoType_BaseBoard => [ones 10%nat]
  | InfoType_Enclosure => [ones 19%nat]
  | InfoType_Processor => let l := ones 44%nat in [l; set_at 2 0xFE (set_at 31 0xFF (set_at 32 0xFF (set_at 33 0xFF l)))]
  | InfoType_Cache => [ones 23%nat]
  | InfoType_PortConnector => [ones 5%nat]
  | InfoType_SystemSlots => [ones 40%nat]
  | InfoType_BiosLanguage => [ones 18%nat]
  | InfoType_GroupAssociations => [ones 4%nat]
  | InfoType_SystemEventLog => let l := ones 20%nat in [l; set_at 6 3 l]
  | InfoType_PhysicalMemoryArray => let l := ones 19%nat in [l; set_at 3 0 (set_at 4 0 (set_at 5 0 (set_at 6 0x80 l)))]
  | InfoType_MemoryDevice => [ones 88%nat]
  | InfoType_MemoryError32 => [ones 19%nat]
  | InfoType_MemoryArrayMappedAddress => [ones 27%nat]
  | InfoType_MemoryDeviceMappedAddress => [ones 31%nat]
  | InfoType_BuiltInPointingDevice => [ones 3%nat]
  | InfoType_PortableBattery => let l := ones 22%nat in [l; set_at 2 0 (set_at 3 0 (set_at 5 2 l))]
  | _ => []
  end.
Definition tried : list N := [2; 0x81; 3].
Definition missing (i : InfoType) : list (string * N) :=
  flat_map (fun e => flat_map (fun k =>
    if existsb (fun l => existsb (fun b => matters (ex_struct 3 3 i l []) (fst e) k b) tried) (samples i) then [] else [(fst e, k)])
    (bytes_of (snd e))) (places {| major := 3; minor := 3 |} i).
Lemma nothing_missing i : missing i = [].
Proof. destruct i; vm_compute; reflexivity. Qed.

Lemma matters_sound i l name k b : matters (ex_struct 3 3 i l []) name k b = true ->
  exists d x y v v', differ_at (eq k) l d /\
    dispatch ex_strict (ex_struct 3 3 i l []) = Val (Ok x) /\ dispatch ex_strict (with_data d (ex_struct 3 3 i l [])) = Val (Ok y) /\
    field_of ex_strict x name v /\ field_of ex_strict y name v' /\ v <> v'.
Proof.
  unfold matters, shown_field. cbn [data ex_struct]. intros H. apply andb_prop in H as [H HM]. apply andb_prop in H as [H1 H2].
  exists (replaced k b l).
  destruct (dispatch ex_strict (ex_struct 3 3 i l [])) as [[x|]| |]; try discriminate.
  destruct (assoc name (Structure_contents ex_strict x)) as [v|] eqn:EV; [|discriminate].
  destruct (dispatch ex_strict (with_data (replaced k b l) (ex_struct 3 3 i l []))) as [[y|]| |]; try discriminate.
  destruct (assoc name (Structure_contents ex_strict y)) as [v'|] eqn:EV'; [|discriminate].
  exists x, y, v, v'. split; [apply replaced_differs; lia|]. split; [reflexivity|]. split; [reflexivity|].
  split; [apply assoc_field, EV|]. split; [apply assoc_field, EV'|]. intros <-. rewrite same_refl in HM. discriminate.
Qed.

Lemma bytes_needed i name ps a n k : In (name, ps) (places {| major := 3; minor := 3 |} i) -> In (Bytes a n) ps -> a <= k -> k < a + n ->
  exists c r d x y v v', info r = i /\ version r = {| major := 3; minor := 3 |} /\ differ_at (eq k) (data r) d /\
    dispatch c r = Val (Ok x) /\ dispatch c (with_data d r) = Val (Ok y) /\
    field_of c x name v /\ field_of c y name v' /\ v <> v'.
Proof.
  intros HI HP H1 H2. pose proof (bytes_of_in ps a n k HP H1 H2) as HK. pose proof (nothing_missing i) as HM.
  assert (X : existsb (fun l => existsb (fun b => matters (ex_struct 3 3 i l []) name k b) tried) (samples i) = true).
  { destruct (existsb _ (samples i)) eqn:E; [reflexivity|exfalso].
    assert (IN : In (name, k) (missing i)); [|rewrite HM in IN; exact IN].
    unfold missing. apply in_flat_map. exists (name, ps). split; [exact HI|]. cbn [fst snd]. apply in_flat_map.
    exists k. split; [exact HK|]. rewrite E. left. reflexivity. }
  apply existsb_exists in X as [l [_ X]]. apply existsb_exists in X as [b [_ X]].
  destruct (matters_sound i l name k b X) as [d [x [y [v [v' [HD [DX [DY [FX [FY NE]]]]]]]]]].
  exists ex_strict, (ex_struct 3 3 i l []), d, x, y, v, v'. auto 10.
Qed.
