(* The two ways of use that the crate documents, as programs over the model. *)
From Verif Require Import Base G_Enums M_Raw M_Entry M_Iter.
Local Open Scope N_scope.

(* README.md:25-29, the two files of /sys/firmware/dmi/tables:
   `let entry = EntryPoint::search(&buf)?; ... entry.structures(&dmi)` *)
Definition open_files (buf dmi : list N) : out (result InvalidEntryPointError Structures) :=
  let? entry := search buf in
  Val (Ok (structures entry dmi)).

(* lib.rs:150-163, a memory dump:
   `entry_point.structures(&DUMP[entry_point.smbios_address() as usize..])`.  The
   example unwraps the result of search; here the error is returned. *)
Definition open_dump (c : cfg) (dump : list N) : out (result InvalidEntryPointError Structures) :=
  let? entry_point := search dump in
  let! b := slice_index_from dump (cast (usize_bits c) (ep_smbios_address entry_point)) in
  Val (Ok (structures entry_point b)).

(* README.md:29-33, `let Ok(table) = table else { ...; continue; }`: what the loop's
   body gets to see of the items *)
Fixpoint well_formed_only (items : list (res Structure)) : list Structure :=
  match items with
  | [] => []
  | Ok s :: l => s :: well_formed_only l
  | Err _ :: l => well_formed_only l
  end.
