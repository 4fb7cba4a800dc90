(* Proofs for types 0 to 3. *)
From Coq Require Import ZArith Lia ZifyBool ZifyNat ZifyN.
From Verif Require Import Base G_Enums M_Raw M_Bios M_System M_BaseBoard M_Enclosure.
From Verif Require Import Spec S_Enums S_Iter S_Decode S_System L_Base L_Strings L_Frame L_Enums L_Decode.
Local Open Scope N_scope.
Ltac Zify.zify_post_hook ::= Z.div_mod_to_equations.
Lemma Bios_ok c r b : Bios_area (version r) <= len (data r) ->
  (Bios_try_from c r = Val (Ok b) <-> Bios_says r b).
Proof.
  intros HL. unfold Bios_try_from, Bios_area in *.
  sinces; versions; try vlia; rewrite read_packed_in by vlia; cbn [obind]; rewrite !at_take by vlia;
    (split; [says_fwd|destruct b as [? ? ? ? ? [? ?] ? ? ? ? ?]; says_bwd;
       repeat match goal with x : Revision |- _ => destruct x; cbn in *; subst end; reflexivity]).
Qed.

Lemma Bios_err c r e : Bios_area (version r) <= len (data r) ->
  (Bios_try_from c r = Val (Err e) <-> first_bad_text r [0x04; 0x05; 0x08] e).
Proof.
  intros HL. unfold Bios_try_from, Bios_area in *.
  sinces; versions; try vlia; rewrite read_packed_in by vlia; cbn [obind]; rewrite !at_take by vlia; fails.
Qed.

Lemma Bios_returns c r : Bios_area (version r) <= len (data r) -> exists o, Bios_try_from c r = Val o.
Proof.
  intros HL. unfold Bios_try_from, Bios_area in *.
  sinces; versions; try vlia; rewrite read_packed_in by vlia; cbn [obind]; finds; eexists; reflexivity.
Qed.

(* ------------------------------------------------------------------ system *)

Lemma list16 (l : list N) : len l = 16 -> exists b0 b1 b2 b3 b4 b5 b6 b7 b8 b9 b10 b11 b12 b13 b14 b15,
  l = [b0; b1; b2; b3; b4; b5; b6; b7; b8; b9; b10; b11; b12; b13; b14; b15].
Proof.
  unfold len. intros H.
  do 16 (destruct l as [|? l]; [cbn [length] in H; lia|]).
  destruct l; [|cbn [length] in H; lia]. repeat eexists.
Qed.

Lemma decode_uuid v b0 b1 b2 b3 b4 b5 b6 b7 b8 b9 b10 b11 b12 b13 b14 b15 :
  decode_by_smbios_version [b0; b1; b2; b3; b4; b5; b6; b7; b8; b9; b10; b11; b12; b13; b14; b15] v =
  if version_lt v (version_of 2 6)
  then [b0; b1; b2; b3; b4; b5; b6; b7; b8; b9; b10; b11; b12; b13; b14; b15]
  else [b3; b2; b1; b0; b5; b4; b7; b6; b8; b9; b10; b11; b12; b13; b14; b15].
Proof. reflexivity. Qed.

Lemma uuid_field_iff r u : 20 <= len (data r) ->
  (uuid_field r u <-> u = decode_by_smbios_version (take 16 (drop 4 (data r))) (version r)).
Proof.
  intros HL. split.
  - intros [b0 [b1 [b2 [b3 [b4 [b5 [b6 [b7 [b8 [b9 [b10 [b11 [b12 [b13 [b14 [b15 [pre [post [E [L [H1 H2]]]]]]]]]]]]]]]]]]]]].
    rewrite E, drop_app_exact by (symmetry; exact L). rewrite take_app_exact by reflexivity. rewrite decode_uuid.
    versions; auto.
  - intros ->. destruct (list16 (take 16 (drop 4 (data r)))) as [b0 [b1 [b2 [b3 [b4 [b5 [b6 [b7 [b8 [b9 [b10 [b11 [b12 [b13 [b14 [b15 E]]]]]]]]]]]]]]]].
    { lens. lia. }
    rewrite E. exists b0, b1, b2, b3, b4, b5, b6, b7, b8, b9, b10, b11, b12, b13, b14, b15, (take 4 (data r)), (drop 16 (drop 4 (data r))).
    rewrite <- E, take_drop, take_drop. rewrite E. split; [reflexivity|]. split; [lens; lia|]. rewrite decode_uuid.
    versions; split; intros; first [reflexivity|vlia].
Qed.

Lemma take_drop_take a b n (d : list N) : a + b <= n -> take b (drop a (take n d)) = take b (drop a d).
Proof. intros H. rewrite drop_take, take_take. f_equal. lia. Qed.

Lemma System_ok c r s : System_area (version r) <= len (data r) ->
  (System_try_from c r = Val (Ok s) <-> System_says r s).
Proof.
  intros HL. unfold System_try_from, System_area in *.
  sinces; versions; try vlia; rewrite read_packed_in by vlia; cbn [obind]; rewrite !at_take by vlia;
    rewrite ?take_drop_take by vlia;
    (split; [says_fwd; first [apply WakeupType_from_meaning|apply uuid_field_iff; [vlia|reflexivity]]
            |destruct s; says_bwd;
             repeat match goal with H : uuid_field _ _ |- _ => apply uuid_field_iff in H; [|vlia] end; subst;
             rewrite ?WakeupType_from_meaning; reflexivity]).
Qed.

Lemma System_err c r e : System_area (version r) <= len (data r) ->
  (System_try_from c r = Val (Err e) <-> first_bad_text r (System_texts (version r)) e).
Proof.
  intros HL. unfold System_try_from, System_area, System_texts in *.
  sinces; versions; try vlia; rewrite read_packed_in by vlia; cbn [obind]; rewrite !at_take by vlia; cbn [app]; fails.
Qed.

Lemma System_returns c r : System_area (version r) <= len (data r) -> exists o, System_try_from c r = Val o.
Proof.
  intros HL. unfold System_try_from, System_area in *.
  sinces; versions; try vlia; rewrite read_packed_in by vlia; cbn [obind]; finds; eexists; reflexivity.
Qed.

(* --------------------------------------------------------------- baseboard *)

Lemma BaseBoard_ok c r b s : readable c 10 r b ->
  (BaseBoard_try_from c r = Val (Ok s) <-> BaseBoard_says b r s).
Proof.
  intros HR. destruct (read_packed_readable c 10 r b HR) as [E [HL [_ FS]]].
  unfold BaseBoard_try_from. rewrite E. cbn [obind]. rewrite !at_take by lia. rewrite !FS.
  unfold BaseBoardFlags_truncate.
  destruct (N.ltb_spec 4 (len (data r))); destruct (N.ltb_spec 5 (len (data r))); try lia;
  destruct (N.ltb_spec 6 (len (data r))); try lia; destruct (N.ltb_spec 7 (len (data r))); try lia;
  destruct (N.ltb_spec 9 (len (data r))); try lia; unfold some_if;
    (split; [says_fwd; apply BoardType_from_meaning
            |destruct s; says_bwd; rewrite ?BoardType_from_meaning; reflexivity]).
Qed.

Lemma BaseBoard_err c r b e : readable c 10 r b ->
  (BaseBoard_try_from c r = Val (Err e) <-> first_bad_text b (BaseBoard_texts r) e).
Proof.
  intros HR. destruct (read_packed_readable c 10 r b HR) as [E [HL [_ FS]]].
  unfold BaseBoard_try_from, BaseBoard_texts. rewrite E. cbn [obind]. rewrite !at_take by lia. rewrite !FS.
  destruct (N.ltb_spec 4 (len (data r))); destruct (N.leb_spec 5 (len (data r))); try lia;
  destruct (N.ltb_spec 6 (len (data r))); destruct (N.leb_spec 7 (len (data r))); try lia; unfold some_if; cbn [app rbind]; fails.
Qed.

Lemma BaseBoard_returns c r b : readable c 10 r b -> exists o, BaseBoard_try_from c r = Val o.
Proof.
  intros HR. destruct (read_packed_readable c 10 r b HR) as [E [HL [_ FS]]].
  unfold BaseBoard_try_from. rewrite E. cbn [obind].
  destruct (4 <? len (data r)); destruct (6 <? len (data r)); unfold some_if; finds; eexists; reflexivity.
Qed.

(* ---------------------------------------------------------------- ROM size *)

Lemma rom_basic c s : basic s < 0xFF -> RomSize_to_u64 c s = Val ((basic s + 1) * (64 * 1024)).
Proof.
  intros H. unfold RomSize_to_u64. destruct (N.eqb_spec (basic s) 0xFF); [lia|]. cbn [negb].
  unfold u_add. destruct (N.ltb_spec (basic s + 1) (2 ^ 8)) as [L|L]; [|change (2 ^ 8) with 256 in L; lia]. cbn [obind].
  change (N.shiftl 64 10) with 65536. unfold u_mul.
  destruct (N.ltb_spec ((basic s + 1) * 65536) (2 ^ 64)) as [L2|L2]; [|change (2 ^ 64) with 18446744073709551616 in L2; lia].
  reflexivity.
Qed.

Lemma rom_unit e : N.land (N.shiftr e 14) 3 = e / 16384 mod 4.
Proof. change 3 with (N.ones 2). rewrite N.land_ones, N.shiftr_div_pow2. reflexivity. Qed.
Lemma rom_size_bits e : N.land e 0x3fff = e mod 16384.
Proof. change 0x3fff with (N.ones 14). apply N.land_ones. Qed.

Lemma rom_extended c s e : basic s = 0xFF -> extended s = Some e -> e < 0x10000 ->
  RomSize_to_u64 c s =
  if e <? 0x4000 then Val (e * 1024 * 1024) else if e <? 0x8000 then Val ((e - 0x4000) * 1024 * 1024 * 1024) else Panic.
Proof.
  intros HB HE H. unfold RomSize_to_u64. rewrite HB, HE. cbn [negb N.eqb Pos.eqb].
  rewrite rom_unit, rom_size_bits, !N.shiftl_mul_pow2. unfold cast.
  change (2 ^ 20) with 1048576. change (2 ^ 30) with 1073741824. change (2 ^ 64) with 18446744073709551616.
  assert (B : e mod 16384 < 16384) by (apply N.mod_lt; discriminate).
  rewrite (N.mod_small (e mod 16384 * 1048576)) by lia.
  rewrite (N.mod_small (e mod 16384 * 1073741824)) by lia.
  destruct (N.ltb_spec e 0x4000).
  - replace (e / 16384 mod 4) with 0 by lia. cbn [N.eqb]. f_equal. lia.
  - destruct (N.ltb_spec e 0x8000).
    + replace (e / 16384 mod 4) with 1 by lia. cbn [N.eqb Pos.eqb]. f_equal. lia.
    + destruct (N.eqb_spec (e / 16384 mod 4) 0); [lia|]. destruct (N.eqb_spec (e / 16384 mod 4) 1); [lia|]. reflexivity.
Qed.

Lemma rom_missing c s : basic s = 0xFF -> extended s = None -> RomSize_to_u64 c s = Panic.
Proof. intros HB HE. unfold RomSize_to_u64. rewrite HB, HE. reflexivity. Qed.

Lemma rom_panics c s : basic s < 256 -> (forall e, extended s = Some e -> e < 0x10000) ->
  (RomSize_to_u64 c s = Panic <->
   basic s = 0xFF /\ (extended s = None \/ exists e, extended s = Some e /\ 0x8000 <= e)).
Proof.
  intros H1 H2. destruct (N.eq_dec (basic s) 0xFF) as [E|E].
  - destruct (extended s) as [e|] eqn:EE.
    + rewrite (rom_extended c s e E EE (H2 e eq_refl)). split.
      * intros H. split; [exact E|]. right. exists e. split; [reflexivity|].
        destruct (N.ltb_spec e 0x4000); [discriminate|]. destruct (N.ltb_spec e 0x8000); [discriminate|]. lia.
      * intros [_ [H|[e' [[= <-] H]]]]; [discriminate|].
        destruct (N.ltb_spec e 0x4000); [lia|]. destruct (N.ltb_spec e 0x8000); [lia|]. reflexivity.
    + rewrite rom_missing by assumption. tauto.
  - rewrite rom_basic by lia. split; [discriminate|]. intros [H _]. congruence.
Qed.
