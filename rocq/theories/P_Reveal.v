(* Property C73: what a decoded structure tells about the structure that was written.
   Vocabulary: S_Write.v (written, lays_out), S_Reveal.v (visible, lossless_types). *)
From Coq Require Import String.
From Coq Require Import ZArith Lia ZifyBool ZifyNat ZifyN.
From Verif Require Import Base G_Enums M_Raw M_Entry M_Iter M_Hash M_Eq G_Eq.
From Verif Require Import Spec S_Enums S_Iter S_Decode S_System S_Hardware S_Lists S_EventLog S_Memory S_Write S_Reveal.
From Verif Require Import L_Base L_Utf8 L_Decode L_Same L_Write L_Reveal P_System P_Iter P_Write.
Local Open Scope N_scope.

(* Two structures of the twenty types are decoded to equal values exactly when they have
   the same type, handle, further strings and visible fields. *)
Theorem C73_value_shows_exactly : forall c v rest1 rest2 w1 w2 s1 s2,
  lays_out v (raw_of v (encoded w1) rest1) s1 (w_type w1) (w_items w1) (w_more w1) ->
  lays_out v (raw_of v (encoded w2) rest2) s2 (w_type w2) (w_items w2) (w_more w2) ->
  written_ok w1 -> written_ok w2 -> In (w_type w1) decoded_types -> In (w_type w2) decoded_types ->
  dispatch c (raw_of v (encoded w1) rest1) = Val (Ok s1) /\
  dispatch c (raw_of v (encoded w2) rest2) = Val (Ok s2) /\
  (Structure_eq s1 s2 = true <->
   w_type w1 = w_type w2 /\ w_handle w1 = w_handle w2 /\
   visible v (w_type w1) (w_items w1) = visible v (w_type w2) (w_items w2) /\ w_more w1 = w_more w2).
Proof.
  intros c v rest1 rest2 w1 w2 s1 s2 L1 L2 W1 W2 D1 D2.
  split; [apply read_back; assumption|]. split; [apply read_back; assumption|].
  exact (reveals v rest1 rest2 w1 w2 s1 s2 L1 L2 W1 W2 D1 D2).
Qed.
Print Assumptions C73_value_shows_exactly.

(* Of twelve types nothing is lost: equal values come from the same fields. *)
Theorem C73_lossless : forall c v rest1 rest2 w1 w2 s1 s2,
  lays_out v (raw_of v (encoded w1) rest1) s1 (w_type w1) (w_items w1) (w_more w1) ->
  lays_out v (raw_of v (encoded w2) rest2) s2 (w_type w2) (w_items w2) (w_more w2) ->
  written_ok w1 -> written_ok w2 -> In (w_type w1) lossless_types ->
  dispatch c (raw_of v (encoded w1) rest1) = Val (Ok s1) /\
  dispatch c (raw_of v (encoded w2) rest2) = Val (Ok s2) /\
  (Structure_eq s1 s2 = true <-> w1 = w2).
Proof.
  intros c v rest1 rest2 w1 w2 s1 s2 L1 L2 W1 W2 D1.
  split; [apply read_back; assumption|]. split; [apply read_back; assumption|].
  exact (reveals_lossless v rest1 rest2 w1 w2 s1 s2 L1 L2 W1 W2 D1).
Qed.
Print Assumptions C73_lossless.

(* Nor of the types that are not decoded: equal values come from the same bytes. *)
Theorem C73_undecoded : forall c v rest1 rest2 w1 w2 s1 s2,
  lays_out v (raw_of v (encoded w1) rest1) s1 (w_type w1) (w_items w1) (w_more w1) ->
  lays_out v (raw_of v (encoded w2) rest2) s2 (w_type w2) (w_items w2) (w_more w2) ->
  written_ok w1 -> written_ok w2 -> ~ In (w_type w1) decoded_types ->
  dispatch c (raw_of v (encoded w1) rest1) = Val (Ok s1) /\
  dispatch c (raw_of v (encoded w2) rest2) = Val (Ok s2) /\
  (Structure_eq s1 s2 = true <-> encode (encoded w1) = encode (encoded w2)).
Proof.
  intros c v rest1 rest2 w1 w2 s1 s2 L1 L2 W1 W2 D1.
  split; [apply read_back; assumption|]. split; [apply read_back; assumption|].
  exact (reveals_undecoded_bytes v rest1 rest2 w1 w2 s1 s2 L1 L2 W1 W2 D1).
Qed.
Print Assumptions C73_undecoded.

(* two structures of type ty and their values *)
Tactic Notation "twins" constr(ty) uconstr(a) uconstr(b) :=
  eexists {| w_type := ty; w_handle := 7; w_items := _; w_more := _ |}, {| w_type := ty; w_handle := 7; w_items := _; w_more := _ |}, _, _;
  cbn [w_type w_items w_more];
  refine (conj eq_refl (conj eq_refl (conj _ (conj _ (conj a (conj b (conj _ _)))))));
  lazymatch goal with |- written_ok _ => written | |- _ <> _ => vm_compute; discriminate | |- Structure_eq _ _ = true => vm_compute; reflexivity | |- _ => side end.

(* Of the other eight types something is lost: structures with different bytes are decoded
   to equal values. *)
Theorem C73_lossless_all_refuted : forall ty, In ty [2; 4; 7; 9; 15; 16; 17; 22] ->
  exists v w1 w2 s1 s2, w_type w1 = ty /\ w_type w2 = ty /\ written_ok w1 /\ written_ok w2 /\
    lays_out v (raw_of v (encoded w1) []) s1 ty (w_items w1) (w_more w1) /\
    lays_out v (raw_of v (encoded w2) []) s2 ty (w_items w2) (w_more w2) /\
    encode (encoded w1) <> encode (encoded w2) /\ Structure_eq s1 s2 = true.
Proof.
  intros ty H. cbn [In] in H. repeat match type of H with _ \/ _ => destruct H as [<-|H] end; try contradiction; exists ex_32.
  (* base board: other contained objects *)
  - twins 2 (lays_baseboard ex_32 _ ab cd ab [] cd 9 ab 0x0103 0x0A [0x0104] _)
            (lays_baseboard ex_32 _ ab cd ab [] cd 9 ab 0x0103 0x0A [0x0107] _).
  (* processor: core count in the small field, or in the large one *)
  - twins 4 (lays_processor ex_32 _ ab 3 198 cd 5 ab 0x8B 100 4000 3600 0x41 1 7 8 9 ab cd [] 6 4 8 0xFC 198 6 4 8 _ _)
            (lays_processor ex_32 _ ab 3 198 cd 5 ab 0x8B 100 4000 3600 0x41 1 7 8 9 ab cd [] 0xFF 4 8 0xFC 198 6 4 8 _ _).
  (* cache: an unused bit of the configuration *)
  - twins 7 (lays_cache ex_32 _ ab 0x0180 ex_conf 64 64 0x20 0x20 0 6 5 7 64 64 _ _ _ _)
            (lays_cache ex_32 _ ab 0x0190 ex_conf 64 64 0x20 0x20 0 6 5 7 64 64 _ _ _ _).
  (* slot: two numbers for one slot type *)
  - twins 9 (lays_slots ex_32 _ ab 0x1F 0x0D 4 4 1 0x0C 1 0 0xFF 0x18 4 0 [] 0 3 8 2450 eq_refl)
            (lays_slots ex_32 _ ab 0xAB 0x0D 4 4 1 0x0C 1 0 0xFF 0x18 4 0 [] 0 3 8 2450 eq_refl).
  (* event log: the size of the descriptors that are not there *)
  - twins 15 (lays_log ex_32 _ 4096 0 16 3 1 5 4096 1 0 2 [] eq_refl _)
             (lays_log ex_32 _ 4096 0 16 3 1 5 4096 1 0 3 [] eq_refl _).
  (* memory array: an extended capacity that the capacity does not refer to *)
  - twins 16 (lays_array ex_32 _ 3 3 6 65536 0xFFFE 4 0 _) (lays_array ex_32 _ 3 3 6 65536 0xFFFE 4 77 _).
  (* memory device: two numbers for one form factor *)
  - twins 17 (lays_device ex_32 _ 0x0110 0xFFFE 72 64 8192 8 0 ab cd 0x1A 0x80 2666 ab cd [] ab 2 0 2400 1200 1200 1200
                3 8 cd 1 0 0 0 0 5 0 0 0 0 _ _)
             (lays_device ex_32 _ 0x0110 0xFFFE 72 64 8192 9 0 ab cd 0x1A 0x80 2666 ab cd [] ab 2 0 2400 1200 1200 1200
                3 8 cd 1 0 0 0 0 5 0 0 0 0 _ _).
  (* battery: a Smart Battery serial number beside the other serial number *)
  - twins 22 (lays_battery ex_32 _ ab cd [] ab ab 2 4400 11100 cd 5 1 0x4E8F ab 10 9)
             (lays_battery ex_32 _ ab cd [] ab ab 2 4400 11100 cd 5 2 0x4E8F ab 10 9).
Qed.
Print Assumptions C73_lossless_all_refuted.

(* ------------------------------------------------------------------ examples *)

(* cases of all three theorems: two different structures and their values, which differ *)
Tactic Notation "others" constr(ty) uconstr(a) uconstr(b) :=
  eexists {| w_type := ty; w_handle := 7; w_items := _; w_more := _ |}, {| w_type := ty; w_handle := 7; w_items := _; w_more := _ |}, _, _;
  cbn [w_type w_items w_more];
  refine (conj eq_refl (conj eq_refl (conj _ (conj _ (conj a (conj b _))))));
  lazymatch goal with |- written_ok _ => written | |- Structure_eq _ _ = false => vm_compute; reflexivity | |- _ => side end.
Example C73_examples : forall ty, In ty [1; 13; 17; 32] ->
  exists w1 w2 s1 s2, w_type w1 = ty /\ w_type w2 = ty /\ written_ok w1 /\ written_ok w2 /\
    lays_out ex_32 (raw_of ex_32 (encoded w1) []) s1 ty (w_items w1) (w_more w1) /\
    lays_out ex_32 (raw_of ex_32 (encoded w2) []) s2 ty (w_items w2) (w_more w2) /\
    Structure_eq s1 s2 = false.
Proof.
  intros ty H. cbn [In] in H. repeat match type of H with _ \/ _ => destruct H as [<-|H] end; try contradiction.
  (* system: other family *)
  - others 1 (lays_system ex_32 _ ab cd ab [] [1; 2; 3; 4; 5; 6; 7; 8; 9; 10; 11; 12; 13; 14; 15; 255] 6 cd ab eq_refl)
             (lays_system ex_32 _ ab cd ab [] [1; 2; 3; 4; 5; 6; 7; 8; 9; 10; 11; 12; 13; 14; 15; 255] 6 cd [] eq_refl).
  (* language: other reserved bytes *)
  - others 13 (lays_language ex_32 _ 1 [0; 0; 0; 0; 0; 0; 0; 0; 0; 0; 0; 0; 0; 0; 0] 2 [ab; cd] _ eq_refl)
              (lays_language ex_32 _ 1 [0; 0; 0; 0; 0; 0; 0; 0; 0; 0; 0; 0; 0; 0; 9] 2 [ab; cd] _ eq_refl).
  (* memory device: other memory type, of those that have names of their own *)
  - others 17 (lays_device ex_32 _ 0x0110 0xFFFE 72 64 8192 8 0 ab cd 0x1A 0x80 2666 ab cd [] ab 2 0 2400 1200 1200 1200
                 3 8 cd 1 0 0 0 0 5 0 0 0 0 _ _)
              (lays_device ex_32 _ 0x0110 0xFFFE 72 64 8192 8 0 ab cd 0x18 0x80 2666 ab cd [] ab 2 0 2400 1200 1200 1200
                 3 8 cd 1 0 0 0 0 5 0 0 0 0 _ _).
  (* boot status, which is not decoded *)
  - others 32 (lays_other ex_32 _ 32 [Raw [0; 0; 0; 0; 0; 0]; U8 0] [] _) (lays_other ex_32 _ 32 [Raw [0; 0; 0; 0; 0; 0]; U8 1] [] _).
Qed.
(* the lists of types: those of which nothing is lost and those of which something is lost *)
Example C73_types : forall ty, In ty decoded_types <-> In ty lossless_types \/ In ty [2; 4; 7; 9; 15; 16; 17; 22].
Proof. intros ty. unfold decoded_types, lossless_types. cbn [In]. tauto. Qed.
