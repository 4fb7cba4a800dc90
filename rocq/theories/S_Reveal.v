(* Specification for C73: which of the fields that were written a decoded structure still
   shows.  Vocabulary: S_Write.v (items, lays_out, written). *)
From Verif Require Import Base G_Enums M_Raw Spec S_Decode S_EventLog S_Write.
Local Open Scope N_scope.

(* fields i, i+1, ..., j-1 of a structure, counted from 0 *)
Definition fields (i j : nat) (l : list item) : list item := firstn (j - i) (skipn i l).
(* the number in field i *)
Definition number_of (i : nat) (l : list item) : N :=
  match nth_error l i with Some (U8 x) | Some (U16 x) | Some (U32 x) | Some (U64 x) => x | _ => 0 end.
(* field i holds no text *)
Definition no_text (i : nat) (l : list item) : bool :=
  match nth_error l i with Some (Ref (_ :: _)) => false | _ => true end.

(* codes that are decoded to the same name: the one that stands for all of them *)
Definition slot_name (k : N) : N :=
  if k =? 0xAB then 0x1F else if k =? 0xB1 then 0x20 else if k =? 0xB8 then 0x24 else if k =? 0xBE then 0x25 else k.
Definition form_name (k : N) : N := if k =? 0x08 then 0x09 else k.
Definition memory_name (k : N) : N := if (k =? 0x16) || (k =? 0x17) then 0x15 else k.

(* a small field, or the large one if the small one holds the number that says so *)
Definition widened (large : bool) (says x y : N) : N := if large && (x =? says) then y else x.

(* What a structure of type ty shows of its fields l: *)
Definition visible (v : SmbiosVersion) (ty : N) (l : list item) : list item :=
  (* base board: not the contained object handles *)
  if ty =? 2 then fields 0 9 l
  (* processor: of family and counts, only the number that holds; the characteristics only
     from 2.6 on although they are written from 2.5 on *)
  else if ty =? 4 then
    fields 0 2 l ++ [U16 (widened (since v 2 6) 0xFE (number_of 2 l) (number_of 22 l))] ++ fields 3 18 l ++
    part (since v 2 5)
      [U16 (widened (since v 3 0) 0xFF (number_of 18 l) (number_of 23 l));
       U16 (widened (since v 3 0) 0xFF (number_of 19 l) (number_of 24 l));
       U16 (widened (since v 3 0) 0xFF (number_of 20 l) (number_of 25 l))] ++
    part (since v 2 6) (fields 21 22 l)
  (* cache: not the unused bits of the configuration; speed to associativity only from 2.2 on
     and the second sizes only from 3.2 on, although they are written one version earlier *)
  else if ty =? 7 then
    fields 0 1 l ++ [U16 (N.land (number_of 1 l) 0x3EF)] ++ fields 2 6 l ++
    part (since v 2 2) (fields 6 10 l) ++ part (since v 3 2) (fields 10 12 l)
  (* slot: not the byte behind the peer devices; four pairs of slot types have one name *)
  else if ty =? 9 then fields 0 1 l ++ [U8 (slot_name (number_of 1 l))] ++ fields 2 14 l ++ fields 15 18 l
  (* event log: of the access address only what the method uses; the size of a descriptor
     only if there are descriptors *)
  else if ty =? 15 then
    fields 0 6 l ++ [U32 (N.land (number_of 6 l) (address_bits (number_of 3 l)))] ++ fields 7 9 l ++
    (if number_of 8 l =? 0 then [] else fields 9 11 l)
  (* memory array: the extended capacity only if the capacity refers to it, from 2.8 on although
     it is written from 2.7 on *)
  else if ty =? 16 then fields 0 6 l ++ part (since v 2 8 && (number_of 3 l =? 0x80000000)) (fields 6 7 l)
  (* memory device: two form factors have one name, and so have three memory types *)
  else if ty =? 17 then
    fields 0 5 l ++ [U8 (form_name (number_of 5 l))] ++ fields 6 9 l ++ [U8 (memory_name (number_of 9 l))] ++ fields 10 35 l
  (* battery: the Smart Battery fields only where the others refer to them *)
  else if ty =? 22 then
    fields 0 10 l ++
    part (no_text 3 l) (fields 10 11 l) ++ part (no_text 2 l) (fields 11 12 l) ++
    part (number_of 5 l =? 0x02) (fields 12 13 l) ++ part (negb (number_of 6 l =? 0)) (fields 13 14 l) ++ fields 14 15 l
  (* all other types: everything *)
  else l.

(* the types of which everything is shown *)
Definition lossless_types : list N := [0; 1; 3; 8; 11; 12; 13; 14; 18; 19; 20; 21].
