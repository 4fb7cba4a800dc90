(* Specification for C72: when two decoded structures are the same. *)
From Coq Require Import String.
From Verif Require Import Base G_Enums M_Raw M_Enclosure M_SystemEventLog M_Iter Spec S_Iter.
Local Open Scope N_scope.

(* the same bytes, cut into the same pieces: in pieces of the same size, or in one piece *)
Definition cut_alike (d e : EventLogTypeDescriptors) : Prop :=
  descriptors_data d = descriptors_data e /\
  (descriptors_size d = descriptors_size e \/
   (len (descriptors_data d) <= descriptors_size d /\ len (descriptors_data d) <= descriptors_size e)).

(* the log s with the descriptors d *)
Definition with_descriptors (s : SystemEventLog) (d : EventLogTypeDescriptors) : SystemEventLog := {|
  log_handle := log_handle s; log_log_area_length := log_log_area_length s;
  log_log_header_start_offset := log_log_header_start_offset s; log_log_data_start_offset := log_log_data_start_offset s;
  log_access_method := log_access_method s; log_log_status := log_log_status s;
  log_log_change_token := log_log_change_token s; log_log_header_format := log_log_header_format s;
  log_descriptors := Some d |}.

(* all fields are the same ([forget] only drops the memory behind the slices, which is no
   field); the only liberty is the piece size of descriptors in one piece *)
Inductive same_value : Structure -> Structure -> Prop :=
| same_fields x y : forget x = forget y -> same_value x y
| same_log s d e : cut_alike d e ->
    same_value (SSystemEventLog (with_descriptors s d)) (SSystemEventLog (with_descriptors s e)).

(* the lists are cut into pieces of at least one byte, unless they are empty *)
Definition lists_ok (x : Structure) : Prop :=
  match x with
  | SEnclosure e => forall l, enclosure_contained_elements e = Some l -> ce_record_length l = 0 -> ce_chunks l = []
  | SSystemEventLog s => forall d, log_descriptors s = Some d -> 0 < descriptors_size d
  | _ => True
  end.

(* the bytes that the structure r found by an iterator s occupies *)
Definition bytes_of (s : Structures) (r : RawStructure) : list N := take (extent r) (drop (idx s) (buffer s)).
