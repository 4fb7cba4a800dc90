(* Model of /repo/src/bitfield.rs.  The FromIterator impls differ only in the
   integer width, which is a parameter here. *)
From Coq Require Import String.
From Verif Require Import Base.
Local Open Scope N_scope.

(* bitfield.rs:20-26 `enum FlagType` *)
Inductive FlagType :=
| FUnknown
| Significant (meaning description : string)
| FReserved (note : string).

(* bitfield.rs:11-17 `struct Flag`; Position is a newtype of usize *)
Record Flag := { position : N; is_set : bool; type_ : FlagType }.

(* bitfield.rs:29 `type Layout` *)
Definition Layout := list FlagType.

(* bitfield.rs:31-37 `struct Iter`; [it_size] is size_of::<T>() in bytes *)
Record Iter := { it_size : N; it_value : N; it_index : N; it_layout : Layout }.

(* bitfield.rs:168-176 `Iter::new` *)
Definition iter_new (size value : N) (layout : Layout) : Iter :=
  {| it_size := size; it_value := value; it_index := 0; it_layout := layout |}.

(* `1 << p` on a w-bit unsigned integer *)
Definition shl1 (c : cfg) (w p : N) : out N :=
  if p <? w then Val (2 ^ p) else if overflow_checks c then Panic else Val (2 ^ (p mod w)).

(* bitfield.rs:177-195 `Iterator for Iter`, next *)
Definition iter_next (c : cfg) (it : Iter) : out (option Flag * Iter) :=
  let len := it_size it * 8 in
  if it_index it =? len then Val (None, it)
  else
    let! bit := shl1 c 128 (it_index it) in
    let set := negb (N.land (it_value it) bit =? 0) in
    let p := it_index it in
    let! t := index (it_layout it) p in
    Val (Some {| position := p; is_set := set; type_ := t |},
         {| it_size := it_size it; it_value := it_value it; it_index := p + 1; it_layout := it_layout it |}).

(* bitfield.rs:203-262 `FromIterator<Position> for u8 .. usize`: fold of
   `acc | (1 << p)` *)
Fixpoint from_positions (c : cfg) (w : N) (acc : N) (ps : list N) : out N :=
  match ps with
  | [] => Val acc
  | p :: ps' => let! b := shl1 c w p in from_positions c w (N.lor acc b) ps'
  end.
Definition from_iter (c : cfg) (w : N) (ps : list N) : out N := from_positions c w 0 ps.

Definition is_reserved (t : FlagType) : bool := match t with FReserved _ => true | _ => false end.

(* bitfield.rs:269-280 `Iterator for Significants`, next: the for loop over
   by_ref().  Every turn moves the index, so the number of layout entries plus
   one is enough fuel; running out of fuel would be [UB] and is shown impossible. *)
Fixpoint significants_loop (fuel : nat) (c : cfg) (it : Iter) : out (option Flag * Iter) :=
  match fuel with
  | O => UB
  | S f =>
    let! (o, it') := iter_next c it in
    match o with
    | None => Val (None, it')
    | Some fl => if is_reserved (type_ fl) || negb (is_set fl)
                 then significants_loop f c it'
                 else Val (Some fl, it')
    end
  end.
Definition significants_next (c : cfg) (it : Iter) : out (option Flag * Iter) :=
  significants_loop (S (S (length (it_layout it)))) c it.

(* bitfield.rs:50-55 `struct Reserved`, bitfield.rs:57-62 `struct ReservedRange` *)
Record Reserved := { rv_iter : Iter; rv_desc : option string; rv_start : N }.
Record ReservedRange := { description : string; range_start : N; range_end : N }.

(* bitfield.rs:282-290 `Reserved::new` *)
Definition reserved_new (it : Iter) : Reserved := {| rv_iter := it; rv_desc := None; rv_start := 0 |}.

(* bitfield.rs:291-335 `Iterator for Reserved`, next: [fin] is the local variable
   `end`.  Fuel as above. *)
Fixpoint reserved_loop (fuel : nat) (c : cfg) (rv : Reserved) (fin : N) : out (option ReservedRange * Reserved) :=
  match fuel with
  | O => UB
  | S f =>
    let! (o, it') := iter_next c (rv_iter rv) in
    match o with
    | None =>
      Val (match rv_desc rv with
           | Some d => Some {| description := d; range_start := rv_start rv; range_end := fin |}
           | None => None
           end,
           {| rv_iter := it'; rv_desc := None; rv_start := rv_start rv |})
    | Some fl =>
      let p := position fl in
      match type_ fl, rv_desc rv with
      | FReserved s, Some desc =>
        if negb (s =? desc)%string then
          Val (Some {| description := desc; range_start := rv_start rv; range_end := fin |},
               {| rv_iter := it'; rv_desc := Some s; rv_start := p |})
        else reserved_loop f c {| rv_iter := it'; rv_desc := Some s; rv_start := rv_start rv |} p
      | FReserved s, None =>
        reserved_loop f c {| rv_iter := it'; rv_desc := Some s; rv_start := p |} p
      | _, Some desc =>
        Val (Some {| description := desc; range_start := rv_start rv; range_end := fin |},
             {| rv_iter := it'; rv_desc := None; rv_start := rv_start rv |})
      | _, None =>
        reserved_loop f c {| rv_iter := it'; rv_desc := None; rv_start := rv_start rv |} p
      end
    end
  end.
Definition reserved_next (c : cfg) (rv : Reserved) : out (option ReservedRange * Reserved) :=
  reserved_loop (S (S (length (it_layout (rv_iter rv))))) c rv 0.

(* bitfield.rs:141-159 `Display for Flag`; [alt] is the alternate flag *)
Definition Flag_display (alt : bool) (f : Flag) : string :=
  match type_ f with
  | Significant meaning description => if alt then description else meaning
  | FReserved note => note
  | FUnknown => "Unknown"
  end.

(* bitfield.rs:103-139 `layout!`: items and the array they expand to.  The macro
   writes the tail first and then the head; a write outside the array does not
   compile, so ignoring it here changes nothing. *)
Inductive LayoutItem :=
| Short (s : string)                 (* "A",          *)
| Long (s l : string)                (* "A" "A long", *)
| Res (desc : string) (count : N).   (* "R": 3,       *)

Fixpoint set_at (i : nat) (t : FlagType) (arr : Layout) : Layout :=
  match arr, i with
  | [], _ => []
  | _ :: r, O => t :: r
  | x :: r, S i' => x :: set_at i' t r
  end.

Fixpoint set_range (i count : nat) (t : FlagType) (arr : Layout) : Layout :=
  match count with
  | O => arr
  | S k => set_range (S i) k t (set_at i t arr)
  end.

Fixpoint layout_fill (idx : nat) (items : list LayoutItem) (arr : Layout) : Layout :=
  match items with
  | [] => arr
  | Res d n :: tl => set_range idx (N.to_nat n) (FReserved d) (layout_fill (idx + N.to_nat n) tl arr)
  | Long s l :: tl => set_at idx (Significant s l) (layout_fill (S idx) tl arr)
  | Short s :: tl => set_at idx (Significant s s) (layout_fill (S idx) tl arr)
  end.

Definition layout (length : N) (items : list LayoutItem) : Layout :=
  layout_fill 0 items (repeat FUnknown (N.to_nat length)).
