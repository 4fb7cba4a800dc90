(* Lemmas for C99. *)
From Coq Require Import ZArith Lia ZifyBool ZifyNat ZifyN.
From Verif Require Import Base G_Enums M_Raw M_Entry M_Iter M_Use Spec S_Decode S_Iter S_Origin S_Local S_Lookup L_Base L_Iter L_Frame L_Origin L_Use.
Local Open Scope N_scope.

Lemma look_fun c h s o1 o2 : looks_up c h s o1 -> looks_up c h s o2 -> o1 = o2.
Proof. intros H. revert o2. induction H; intros o2 H2; inversion H2; subst; try congruence; apply IHlooks_up; congruence. Qed.

Lemma look_first c h s l s1 x s2 : reaches (next c) s l s1 -> nobody h (well_formed_only l) ->
  next c s1 = Val (Some (Ok x), s2) -> shown_handle x = h -> looks_up c h s (Some x).
Proof.
  intros R N E H. induction R as [s|s [y|e] s1 l s' E1 R IH].
  - eapply look_found; eassumption.
  - eapply look_other; [exact E1| |apply IH; [|exact E]].
    + apply N. left. reflexivity.
    + intros z Z. apply N. right. exact Z.
  - eapply look_malformed; [exact E1|]. apply IH; [|exact E]. exact N.
Qed.
Lemma look_none c h s l s' : drains (next c) s l s' -> nobody h (well_formed_only l) -> looks_up c h s None.
Proof.
  induction 1 as [s s' E|s [y|e] s1 l s' E D IH]; intros N.
  - eapply look_end. exact E.
  - eapply look_other; [exact E| |apply IH].
    + apply N. left. reflexivity.
    + intros z Z. apply N. right. exact Z.
  - eapply look_malformed; [exact E|]. apply IH. exact N.
Qed.
Lemma look_list c h s l s' : drains (next c) s l s' ->
  looks_up c h s (find (fun x => shown_handle x =? h) (well_formed_only l)).
Proof.
  induction 1 as [s s' E|s [y|e] s1 l s' E D IH]; cbn [well_formed_only find].
  - eapply look_end. exact E.
  - destruct (N.eqb_spec (shown_handle y) h) as [Q|Q]; [eapply look_found; eassumption|eapply look_other; eassumption].
  - eapply look_malformed; [exact E|exact IH].
Qed.
Lemma look_sound c h s o : looks_up c h s o -> sane s -> forall x, o = Some x -> 
  exists l s1 s2, reaches (next c) s l s1 /\ nobody h (well_formed_only l) /\ next c s1 = Val (Some (Ok x), s2) /\ shown_handle x = h.
Proof.
  induction 1 as [s x s' E H|s y s' o E H L IH|s e s' o E L IH|s s' E]; intros S z Z; [| | |discriminate].
  - injection Z as <-. exists [], s, s'. split; [constructor|]. split; [intros ? []|]. auto.
  - destruct (IH (proj1 (next_sane _ _ _ _ S E)) z Z) as (l & s1 & s2 & R & N & K). exists (Ok y :: l), s1, s2.
    split; [econstructor; eassumption|]. split; [|exact K]. intros w [<-|W]; [exact H|apply N, W].
  - destruct (IH (proj1 (next_sane _ _ _ _ S E)) z Z) as (l & s1 & s2 & R & N & K). exists (Err e :: l), s1, s2.
    split; [econstructor; eassumption|]. split; [exact N|exact K].
Qed.
Lemma reaches_place c s l s1 : reaches (next c) s l s1 -> sane s ->
  sane s1 /\ buffer s1 = buffer s /\ smbios_version s1 = smbios_version s /\ idx s <= idx s1.
Proof.
  induction 1 as [s|s i s1 l s' E R IH]; intros S; [auto using N.le_refl|].
  destruct (next_sane _ _ _ _ S E) as [S1 B1]. destruct (IH S1) as (A & B & C & D).
  split; [exact A|]. split; [congruence|].
  destruct (next_item _ _ _ _ S E) as [(e & _ & _ & ->)|(r & _ & _ & ->)].
  - cbn [stopped_at smbios_version idx] in *. auto.
  - destruct (_ && _); cbn [stopped_at moved_to smbios_version idx] in *; (split; [exact C|lia]).
Qed.
Lemma look_table c h s x : sane s -> looks_up c h s (Some x) ->
  exists pos r, idx s <= pos /\ framed (smbios_version s) (buffer s) pos r /\ dispatch c r = Val (Ok x) /\
    (from_version (smbios_version s) 2 2 -> handle r = h).
Proof.
  intros S L. destruct (look_sound _ _ _ _ L S x eq_refl) as (l & s1 & s2 & R & N & E & H).
  destruct (reaches_place _ _ _ _ R S) as (S1 & B & V & I).
  destruct (success_moves _ _ _ _ S1 E) as (r & [F _] & D & _). rewrite B, V in F.
  exists (idx s1), r. split; [exact I|]. split; [exact F|]. split; [exact D|]. intros G.
  rewrite <- (dispatch_handle c r x D); [exact H|]. intros _.
  destruct F as (pre & post & k & h0 & h1 & _ & _ & _ & _ & _ & _ & -> & _). exact G.
Qed.
Lemma find_nodup h l x : NoDup (map shown_handle l) -> In x l -> shown_handle x = h -> find (fun x => shown_handle x =? h) l = Some x.
Proof.
  induction l as [|y l IH]; intros D I H; [destruct I|]; cbn [find]. destruct I as [->|I]; [destruct (N.eqb_spec (shown_handle x) h); [reflexivity|contradiction]|].
  inversion D as [|? ? N1 D1]; subst. destruct (N.eqb_spec (shown_handle y) (shown_handle x)) as [Q|Q]; [|auto].
  exfalso. apply N1. rewrite Q. apply in_map, I.
Qed.
