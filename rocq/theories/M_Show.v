(* Model of the code that `#[derive(Debug)]` writes, for all types of /repo/src that occur in
   structures, and of the parts of core::fmt, bitflags and uuid that it calls: what `{:?}` and
   `{:#?}` of a value write.  G_Show lists the names and fields of each type; here is what is
   done with them.  core, bitflags 2.9.1 and uuid 1.17.0 are not in /repo; they are modelled
   after their documentation.  Texts are Coq strings, one character per byte of the UTF-8 text. *)
From Coq Require Import String Ascii.
From Verif Require Import Base G_Enums M_Raw M_Enclosure M_SystemSlots M_SystemEventLog M_Flags M_Display M_Debug.
Local Open Scope string_scope.
Local Open Scope N_scope.

(* The two tables of Unicode that core has for characters from 80h on: which characters are
   printable, and which extend the character before them (Grapheme_Extend). *)
Record characters := { printable : N -> bool; extending : N -> bool }.

(* What a derived `fmt` tells the formatter. *)
Inductive tree :=
| Words (l : list string)                                 (* words with " | " between them; mostly one *)
| Quoted (t : text)                                       (* a `str` *)
| Call (name : string) (fields : list tree)               (* debug_tuple; at least one field *)
| Fields (name : string) (fields : list (string * tree))  (* debug_struct; at least one field *)
| Items (l : list tree).                                  (* debug_list *)

(* ------------------------------------------------------------------------- str *)

(* core::str::Chars on valid UTF-8: the characters, with the bytes of each *)
Fixpoint chars (t : text) : list (N * list N) :=
  match t with
  | [] => []
  | b0 :: t0 =>
    if b0 <? 0x80 then (b0, [b0]) :: chars t0
    else match t0 with
    | [] => []
    | b1 :: t1 =>
      if b0 <? 0xE0 then (b0 mod 32 * 64 + b1 mod 64, [b0; b1]) :: chars t1
      else match t1 with
      | [] => []
      | b2 :: t2 =>
        if b0 <? 0xF0 then (b0 mod 16 * 4096 + b1 mod 64 * 64 + b2 mod 64, [b0; b1; b2]) :: chars t2
        else match t2 with
        | [] => []
        | b3 :: t3 =>
          (b0 mod 8 * 262144 + b1 mod 64 * 4096 + b2 mod 64 * 64 + b3 mod 64, [b0; b1; b2; b3]) :: chars t3
        end
      end
    end
  end.

(* core: `char::escape_debug_ext` as `Debug for str` calls it: double quotes are escaped,
   single ones are not; a character that is not escaped is written as it is *)
Definition backslash (s : string) : string := String "\" s.
Definition escape_unicode (c : N) : string := backslash ("u{" ++ show_hex_low c ++ "}").
Definition escape_one (u : characters) (c : N * list N) : string :=
  let n := fst c in
  if n =? 0 then backslash "0"
  else if n =? 9 then backslash "t"
  else if n =? 10 then backslash "n"
  else if n =? 13 then backslash "r"
  else if n =? 34 then backslash quote
  else if n =? 92 then backslash "\"
  else if n <? 128 then (if (n <? 32) || (n =? 127) then escape_unicode n else show_text (snd c))
  else if extending u n || negb (printable u n) then escape_unicode n
  else show_text (snd c).
Fixpoint escape_all (u : characters) (l : list (N * list N)) : string :=
  match l with [] => "" | c :: l => escape_one u c ++ escape_all u l end.
Definition show_str (u : characters) (t : text) : string := quote ++ escape_all u (chars t) ++ quote.

(* -------------------------------------------------------------- the formatter *)

Fixpoint join (sep : string) (l : list string) : string :=
  match l with
  | [] => ""
  | [s] => s
  | s :: l => s ++ sep ++ join sep l
  end.

(* core::fmt::builders: `open a, b close`; in the alternate form one field per line, indented
   by four more spaces, a comma behind each.  [gap] is the blank inside of { } *)
Definition block (alt : bool) (depth : nat) (open gap close : string) (fields : list string) : string :=
  if alt
  then open ++ newline ++
       fold_right append "" (map (fun s => indent (S depth) ++ s ++ "," ++ newline) fields) ++ indent depth ++ close
  else open ++ gap ++ join ", " fields ++ gap ++ close.

Fixpoint print (u : characters) (alt : bool) (depth : nat) (t : tree) : string :=
  match t with
  | Words l => join " | " l
  | Quoted t => show_str u t
  | Call name l => block alt depth (name ++ "(") "" ")" (map (fun f => print u alt (S depth) f) l)
  | Fields name l =>
      block alt depth (name ++ " {") " " "}"
        (map (fun f => match f with (field, x) => field ++ ": " ++ print u alt (S depth) x end) l)
  | Items [] => "[]"
  | Items l => block alt depth "[" "" "]" (map (fun f => print u alt (S depth) f) l)
  end.

(* ---------------------------------------------------------------------- leaves *)

Definition show_unit (name : string) : tree := Words [name].
Definition show_int (n : N) : tree := Words [show_dec n].
Definition show_bool (b : bool) : tree := Words [if b then "true" else "false"].
Definition show_bytes (l : list N) : tree := Items (map show_int l).
Definition show_option {A} (f : A -> tree) (o : option A) : tree :=
  match o with None => Words ["None"] | Some x => Call "Some" [f x] end.
(* an enum whose variants have at most one field, an integer *)
Definition show_variant (name : string) (value : option N) : tree :=
  match value with None => Words [name] | Some v => Call name [show_int v] end.
(* a tuple struct around an integer *)
Definition show_wrapped (name : string) (n : N) : tree := Call name [show_int n].

(* uuid 1.17.0, `Debug for Uuid`: lower case, a hyphen before bytes 4, 6, 8 and 10 *)
Fixpoint hyphenated (place : nat) (l : list N) : string :=
  match l with
  | [] => ""
  | b :: l =>
      (match place with 4%nat | 6%nat | 8%nat | 10%nat => "-" | _ => "" end) ++
      digit_low (b / 16) ++ digit_low (b mod 16) ++ hyphenated (S place) l
  end.
Definition show_uuid (l : list N) : tree := Words [hyphenated 0 l].

(* bitflags 2.9.1: the type is a tuple struct around a private one, which writes the names of
   the constants, then the bits no constant accounts for; 0x0 if there are none at all *)
Definition covered (cs : constants) (bits : N) : N := fold_right N.lor 0 (map snd (iter_names cs bits)).
Definition flag_words (cs : constants) (bits : N) : list string :=
  if is_empty bits then ["0x0"]
  else
    let remaining := N.ldiff bits (covered cs bits) in
    app (map fst (iter_names cs bits)) (if is_empty remaining then [] else ["0x" ++ show_hex_low remaining]).
Definition show_flags (name : string) (cs : constants) (bits : N) : tree := Call name [Words (flag_words cs bits)].

(* core::slice::Chunks: `struct Chunks { v: &[T], chunk_size: usize }` *)
Definition show_chunks (v : list N) (chunk_size : N) : tree :=
  Fields "Chunks" [("v", show_bytes v); ("chunk_size", show_int chunk_size)].

(* 003_enclosure.rs:133-139 `struct ContainedElements`; the chunk size is the one `new`
   (003_enclosure.rs:412-432) chose: usize::MAX where there is nothing to cut *)
Definition ContainedElements_chunk_size (c : cfg) (x : ContainedElements) : N :=
  if (ce_count x =? 0) || (ce_record_length x =? 0) then 2 ^ usize_bits c - 1 else ce_record_length x.
Definition ContainedElements_tree (c : cfg) (x : ContainedElements) : tree :=
  Fields "ContainedElements"
    [("chunks", show_chunks (ce_chunks x) (ContainedElements_chunk_size c x));
     ("count", show_int (ce_count x));
     ("record_length", show_int (ce_record_length x))].
(* 009_system_slots.rs:327-328 `struct PeerDevices(Chunks)`, cut in pieces of five (:848) *)
Definition PeerDevices_tree (x : PeerDevices) : tree := Call "PeerDevices" [show_chunks (peer_chunks x) 5].
(* 015_system_event_log/mod.rs:140-141 `struct SupportedEventLogTypeDescriptors(Chunks)` *)
Definition EventLogTypeDescriptors_tree (x : EventLogTypeDescriptors) : tree :=
  Call "SupportedEventLogTypeDescriptors" [show_chunks (descriptors_data x) (descriptors_size x)].
