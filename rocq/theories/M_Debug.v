(* `Debug`: the hand-written one of /repo/src/bitfield.rs, the derived ones of the two
   error types, and what the program of README.md prints with them. *)
From Coq Require Import String Ascii.
From Verif Require Import Base G_Enums M_Raw M_Entry M_Bitfield M_Display M_Iter.
Local Open Scope string_scope.
Local Open Scope N_scope.

Definition newline : string := String (ascii_of_N 10) "".

(* bitfield.rs:160-167 `Debug for Flag`: `debug_struct` with the fields position (derived
   Debug of `Position`, a tuple struct) and is_set; [alt] is `{:#?}`, one field per line *)
Definition Flag_debug (alt : bool) (f : Flag) : string :=
  let set := if is_set f then "true" else "false" in
  if alt
  then "Flag {" ++ newline ++ "    position: Position(" ++ newline ++ "        " ++ show_dec (position f) ++ "," ++ newline ++
       "    )," ++ newline ++ "    is_set: " ++ set ++ "," ++ newline ++ "}"
  else "Flag { position: Position(" ++ show_dec (position f) ++ "), is_set: " ++ set ++ " }".

(* ------------------------------------------------------------ derived Debug *)

(* what a derived `fmt` tells the formatter: a unit variant or a value that writes itself
   (`Atom`), or a tuple variant with its fields (core::fmt::Formatter::debug_tuple) *)
Inductive dbg := Atom (text : string) | Tuple (name : string) (fields : list dbg).

Fixpoint spaces (n : nat) : string := match n with O => "" | S n => String " " (spaces n) end.
Definition indent (depth : nat) : string := spaces (4 * depth).

(* core::fmt::builders::DebugTuple: `name(a, b)`; in the alternate form one field per line,
   indented by four more spaces, a comma behind each *)
Fixpoint render (alt : bool) (depth : nat) (t : dbg) : string :=
  match t with
  | Atom text => text
  | Tuple name fields =>
      if alt
      then name ++ "(" ++ newline ++
           (fix each (l : list dbg) : string :=
              match l with
              | [] => ""
              | f :: l => indent (S depth) ++ render alt (S depth) f ++ "," ++ newline ++ each l
              end) fields ++ indent depth ++ ")"
      else name ++ "(" ++
           (fix each (l : list dbg) : string :=
              match l with
              | [] => ""
              | [f] => render alt depth f
              | f :: l => render alt depth f ++ ", " ++ each l
              end) fields ++ ")"
  end.

(* `Debug for str`, the characters below 80h only: the texts in errors are literals of the
   crate and have no others *)
Definition escape_char (c : ascii) : string :=
  let n := N_of_ascii c in
  if n =? 0 then "\0" else if n =? 9 then "\t" else if n =? 10 then "\n" else if n =? 13 then "\r"
  else if n =? 34 then "\" ++ String c "" else if n =? 92 then "\\"
  else if (n <? 32) || (n =? 127) then "\u{" ++ show_hex_low n ++ "}"
  else String c "".
Fixpoint escape (s : string) : string :=
  match s with EmptyString => "" | String c s => escape_char c ++ escape s end.
Definition quote : string := String (ascii_of_N 34) "".
Definition str_debug (s : string) : dbg := Atom (quote ++ escape s ++ quote).
Definition int_debug (n : N) : dbg := Atom (show_dec n).

(* lib.rs:688-713 `#[derive(Debug)] InfoType` *)
Definition InfoType_dbg (i : InfoType) : dbg :=
  match i with
  | InfoType_Oem t => Tuple "Oem" [int_debug t]
  | _ => Atom (InfoType_debug i)
  end.

(* lib.rs:305-316 `#[derive(Debug)] InvalidEntryPointError` *)
Definition InvalidEntryPointError_dbg (e : InvalidEntryPointError) : dbg :=
  match e with
  | NotFound => Atom "NotFound"
  | TooOldVersion version => Tuple "TooOldVersion" [int_debug version]
  | EpBadSize size => Tuple "BadSize" [int_debug size]
  | BadChecksum checksum => Tuple "BadChecksum" [int_debug checksum]
  end.

(* lib.rs:392-405 `#[derive(Debug)] MalformedStructureError`; `TryFromSliceError(())` is
   a tuple struct of core around the unit value *)
Definition MalformedStructureError_dbg (e : MalformedStructureError) : dbg :=
  match e with
  | BadSize offset length => Tuple "BadSize" [int_debug offset; int_debug length]
  | UnterminatedStrings offset => Tuple "UnterminatedStrings" [int_debug offset]
  | InvalidStringIndex info handle index =>
      Tuple "InvalidStringIndex" [InfoType_dbg info; int_debug handle; int_debug index]
  | InvalidSlice => Tuple "InvalidSlice" [Tuple "TryFromSliceError" [Atom "()"]]
  | InvalidFormattedSectionLength info handle spec length =>
      Tuple "InvalidFormattedSectionLength" [InfoType_dbg info; int_debug handle; str_debug spec; int_debug length]
  end.

(* README.md:29-33: the lines on standard error, without the line ends; `table` still is
   the `Result` there *)
Definition complaint (e : MalformedStructureError) : string :=
  "DMI tables contain malformed structure: " ++ render false 0 (Tuple "Err" [MalformedStructureError_dbg e]).
Fixpoint complaints (items : list (res Structure)) : list string :=
  match items with
  | [] => []
  | Ok _ :: l => complaints l
  | Err e :: l => complaint e :: complaints l
  end.
(* README.md:20,27: `main` passes on the error of `search` in a Box; std prints `Error: {e:?}` *)
Definition failure (e : InvalidEntryPointError) : string := "Error: " ++ render false 0 (InvalidEntryPointError_dbg e).
