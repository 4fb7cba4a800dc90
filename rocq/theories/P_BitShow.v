(* Property C86: the developer texts of the bit field types. *)
From Coq Require Import String.
From Coq Require Import ZArith Lia ZifyBool ZifyNat ZifyN.
From Verif Require Import Base M_Raw M_Bitfield M_BitfieldEq M_Display M_Debug M_Show M_BitShow G_Layouts
  Spec S_Text S_Show S_BitShow L_Base L_BitfieldEq L_Show L_Shown L_BitShow P_System P_Show.
Local Open Scope string_scope.
Local Open Scope N_scope.

(* What `{:?}` writes, field by field. *)
Theorem C86_texts : forall u,
  (forall t, rust_flag_type t -> flag_type_text u t (FlagType_debug_text u false t)) /\
  (forall p, rust_usize p -> exists n, numeral 10 n p /\ Position_debug_text u false p = "Position(" ++ n ++ ")") /\
  (forall it, rust_iter it -> iter_text u it (Iter_debug_text u false it)) /\
  (forall it, rust_iter it -> exists s, iter_text u it s /\ Significants_debug_text u false it = "Significants(" ++ s ++ ")") /\
  (forall r, rust_reserved r -> reserved_iter_text u r (Reserved_debug_text u false r)) /\
  (forall r, rust_range r -> range_text u r (ReservedRange_debug_text u false r)).
Proof.
  intros u. split; [intros t; apply flag_type_spelled|]. split.
  - intros p H. exists (show_dec p). split; [apply big_numeral, usize_room, H|reflexivity].
  - split; [intros it; apply iter_spelled|]. split; [intros it; apply significants_spelled|].
    split; [intros r; apply reserved_spelled|intros r; apply range_spelled].
Qed.
Print Assumptions C86_texts.

(* Two values have the same text, in either form, exactly when they are the same value; for
   iterators this is meant within one integer type. *)
Theorem C86_exactly : forall u alt,
  (forall s t, rust_flag_type s -> rust_flag_type t -> (FlagType_debug_text u alt s = FlagType_debug_text u alt t <-> s = t)) /\
  (forall p q, rust_usize p -> rust_usize q -> (Position_debug_text u alt p = Position_debug_text u alt q <-> p = q)) /\
  (forall a b, rust_iter a -> rust_iter b -> it_size a = it_size b ->
     (Iter_debug_text u alt a = Iter_debug_text u alt b <-> a = b) /\
     (Significants_debug_text u alt a = Significants_debug_text u alt b <-> a = b)) /\
  (forall a b, rust_reserved a -> rust_reserved b -> it_size (rv_iter a) = it_size (rv_iter b) ->
     (Reserved_debug_text u alt a = Reserved_debug_text u alt b <-> a = b)) /\
  (forall a b, rust_range a -> rust_range b -> (ReservedRange_debug_text u alt a = ReservedRange_debug_text u alt b <-> a = b)).
Proof.
  intros u alt. split; [intros s t; apply flag_type_exactly|]. split; [intros p q; apply position_exactly|].
  split; [intros a b HA HB S; split; [apply iter_exactly|apply significants_exactly]; assumption|].
  split; [intros a b; apply reserved_exactly|intros a b; apply range_exactly].
Qed.
Print Assumptions C86_exactly.

(* The text does not tell the integer type: iterators over a u8 and a u16 can have the same. *)
Theorem C86_integer_type_refuted : exists a b, rust_iter a /\ rust_iter b /\ it_size a <> it_size b /\
  forall u alt, Iter_debug_text u alt a = Iter_debug_text u alt b.
Proof.
  exists (iter_new 1 5 []), (iter_new 2 5 []). split; [split; [reflexivity|split; [reflexivity|constructor]]|].
  split; [split; [reflexivity|split; [reflexivity|constructor]]|]. split; [discriminate|]. reflexivity.
Qed.
Print Assumptions C86_integer_type_refuted.

(* `{:?}` is one line of visible characters, `{:#?}` several of them, whatever texts a layout
   has. *)
Theorem C86_lines : forall u t, 
  (exists x, rust_flag_type x /\ t = (fun alt => FlagType_debug_text u alt x)) \/
  (exists x, rust_usize x /\ t = (fun alt => Position_debug_text u alt x)) \/
  (exists x, rust_flag x /\ t = (fun alt => Flag_debug_text u alt x)) \/
  (exists x, rust_iter x /\ t = (fun alt => Iter_debug_text u alt x)) \/
  (exists x, rust_iter x /\ t = (fun alt => Significants_debug_text u alt x)) \/
  (exists x, rust_reserved x /\ t = (fun alt => Reserved_debug_text u alt x)) \/
  (exists x, rust_range x /\ t = (fun alt => ReservedRange_debug_text u alt x)) ->
  one_line u (t false) /\ exists l, Forall (one_line u) l /\ t true = several_lines l.
Proof.
  intros u t H.
  assert (G : exists r, neat r = true /\ forall alt, t alt = print u alt 0 r).
  { repeat destruct H as [H|H]; destruct H as [x [HX ->]]; eexists; (split; [|intros alt; reflexivity]).
    - apply flag_type_neat, HX.
    - apply position_neat, HX.
    - apply flag_neat, HX.
    - apply iter_neat, HX.
    - apply significants_neat, HX.
    - apply reserved_neat, HX.
    - apply range_neat, HX. }
  destruct G as [r [N E]]. rewrite !E. split; [apply neat_line, N|].
  destruct (neat_many u r 0 N) as [l [_ L]]. exists l. exact L.
Qed.
Print Assumptions C86_lines.

(* Flags are written as C80 says. *)
Theorem C86_flags : forall u alt f, Flag_debug_text u alt f = Flag_debug alt f.
Proof. exact flag_render. Qed.
Print Assumptions C86_flags.

(* All values that the crate makes are covered: the iterators of its bit fields, what they
   become and what they yield. *)
Theorem C86_start : forall size l v, In (size, l) all_layouts -> v < 2 ^ (8 * size) ->
  rust_iter (iter_new size v l) /\ rust_reserved (reserved_new (iter_new size v l)) /\ len l < 2 ^ 64.
Proof.
  intros size l v H HV. pose proof shipped_rust as S. rewrite Forall_forall in S. specialize (S _ H). cbn [snd] in S.
  assert (B : Forall (fun x => 8 * fst x <= 128 /\ len (snd x) < 2 ^ 64) all_layouts)
    by (repeat constructor; vm_compute; congruence).
  rewrite Forall_forall in B. specialize (B _ H). cbn [fst snd] in B. destruct B as [B1 B2].
  assert (R : rust_iter (iter_new size v l)).
  { split; [|split; [reflexivity|exact S]]. cbn [iter_new it_value]. eapply N.lt_le_trans; [exact HV|]. apply N.pow_le_mono_r; [lia|exact B1]. }
  split; [exact R|]. split; [|exact B2]. split; [exact R|]. split; [discriminate|reflexivity].
Qed.
Print Assumptions C86_start.
Theorem C86_next : forall c,
  (forall it o it', rust_iter it -> len (it_layout it) < 2 ^ 64 ->
     iter_next c it = Val (o, it') \/ significants_next c it = Val (o, it') ->
     rust_iter it' /\ it_layout it' = it_layout it /\ forall f, o = Some f -> rust_flag f) /\
  (forall r o r', rust_reserved r -> len (it_layout (rv_iter r)) < 2 ^ 64 -> reserved_next c r = Val (o, r') ->
     rust_reserved r' /\ it_layout (rv_iter r') = it_layout (rv_iter r) /\ forall g, o = Some g -> rust_range g).
Proof.
  intros c. split.
  - intros it o it' H L [E|E].
    + apply iter_next_rust in E; [|assumption..]. destruct E as [[E1 E2] E3]. split; [exact E1|]. split; [exact E2|]. intros f F. apply (E3 f F).
    + apply significants_loop_rust in E; [|assumption..]. destruct E as [[E1 E2] E3]. split; [exact E1|]. split; [exact E2|exact E3].
  - intros r o r' H L E. apply reserved_loop_rust in E; [|assumption|reflexivity|assumption].
    destruct E as [[E1 E2] E3]. split; [exact E1|]. split; [exact E2|exact E3].
Qed.
Print Assumptions C86_next.

Definition ex_layout : Layout := [Significant "A" "a quote "" here"; FReserved "R"; FReserved "R"; FUnknown; FUnknown; FUnknown; FUnknown; FUnknown].
Example C86_example :
  rust_iter (iter_new 1 3 ex_layout) /\
  Iter_debug_text ex_chars false (iter_new 1 3 ex_layout) =
    "Iter { value: 3, index: 0, layout: [Significant(""A"", ""a quote \"" here""), Reserved(""R""), Reserved(""R""), " ++
    "Unknown, Unknown, Unknown, Unknown, Unknown] }" /\
  match reserved_next ex_strict (reserved_new (iter_new 1 3 ex_layout)) with
  | Val (Some r, s) =>
      rust_range r /\ ReservedRange_debug_text ex_chars false r = "ReservedRange { description: ""R"", range: 1..=2 }" /\
      ReservedRange_debug_text ex_chars true r = several_lines ["ReservedRange {"; "    description: ""R"","; "    range: 1..=2,"; "}"] /\
      Reserved_debug_text ex_chars false (reserved_new (iter_new 1 3 [])) =
        "Reserved { iter: Iter { value: 3, index: 0, layout: [] }, desc: None, start: 0 }" /\
      Significants_debug_text ex_chars false (iter_new 1 3 []) = "Significants(Iter { value: 3, index: 0, layout: [] })"
  | _ => False
  end.
Proof.
  split; [split; [reflexivity|split; [reflexivity|]]|split; [vm_compute; reflexivity|]].
  - unfold ex_layout. repeat constructor; apply L_Utf8.from_utf8_iff; vm_compute; reflexivity.
  - match goal with |- match ?e with _ => _ end => let v := eval vm_compute in e in change e with v end. cbv beta iota.
    split; [split; [|split; reflexivity]|repeat split; vm_compute; reflexivity]. apply L_Utf8.from_utf8_iff. vm_compute. reflexivity.
Qed.
(* the line break in a description of the crate does not break the line *)
Example C86_line_break : exists l, In (1, l) all_layouts /\ (exists m d, In (Significant m d) l /\ In 10 (bytes_of d)) /\
  one_line ex_chars (Iter_debug_text ex_chars false (iter_new 1 1 l)).
Proof.
  exists LanguageFlags_layout. assert (I : In (1, LanguageFlags_layout) all_layouts) by (cbn [In all_layouts]; tauto).
  split; [exact I|]. split.
  - do 2 eexists. split; [left; reflexivity|]. vm_compute. tauto.
  - refine (proj1 (C86_lines ex_chars (fun alt => Iter_debug_text ex_chars alt (iter_new 1 1 LanguageFlags_layout)) _)).
    do 3 right. left. exists (iter_new 1 1 LanguageFlags_layout). split; [|reflexivity].
    exact (proj1 (C86_start 1 LanguageFlags_layout 1 I eq_refl)).
Qed.
