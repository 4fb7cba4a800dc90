(* Specification used by P_Use: memory dumps. *)
From Verif Require Import Base G_Enums M_Raw M_Entry M_Iter Spec S_Entry S_Iter S_Safety S_Table S_Write.
Local Open Scope N_scope.

(* paragraphs without an anchor, an entry point, something, the table, something *)
Definition dump (p : list N) (a : announcement) (gap : list N) (ws : list written) (rest : list N) : list N :=
  p ++ encode_entry a ++ gap ++ table (map encoded ws) ++ rest.

Definition announced_version (a : announcement) : SmbiosVersion := {| major := a_major a; minor := a_minor a |}.

(* the structures ss are written as ws, and the entry point announces them *)
Record firmware (a : announcement) (ss : list Structure) (ws : list written) (rest : list N) : Prop := {
  f_announcement : announcement_ok a;
  f_written : Forall written_ok ws;
  f_values : lays_out_table (announced_version a) rest ss ws;
  f_ends : ends_last (announced_version a) ws;
  f_length : announces (announced_version a) (a_length a) (map encoded ws);
  f_rest : all_bytes rest;
  f_size : len (table (map encoded ws) ++ rest) + 260 <= 2 ^ 32
}.

(* no structure the iterator comes to says that it is shorter than its header *)
Definition lengths_ok (c : cfg) (s : Structures) : Prop :=
  forall s1 l, reached c s s1 -> idx s1 + 4 <= smbios_len_ s1 -> byte_at (buffer s1) (idx s1 + 1) = Some l -> 4 <= l.

(* where in a dump the program looks for the table: the announced address `as usize` *)
Definition place (c : cfg) (e : EntryPoint) : N := ep_smbios_address e mod 2 ^ usize_bits c.
