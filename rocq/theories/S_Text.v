(* Specification vocabulary for displayed texts. *)
From Coq Require Import String Ascii.
From Verif Require Import Base.
Local Open Scope N_scope.

(* the value of a digit, either case *)
Definition digit_value (c : ascii) : option N :=
  let k := N_of_ascii c in
  if (48 <=? k) && (k <=? 57) then Some (k - 48)
  else if (65 <=? k) && (k <=? 70) then Some (k - 55)
  else if (97 <=? k) && (k <=? 102) then Some (k - 87)
  else None.

(* reading digits from left to right *)
Fixpoint read_from (base acc : N) (s : string) : option N :=
  match s with
  | EmptyString => Some acc
  | String c s =>
    match digit_value c with
    | Some d => if d <? base then read_from base (acc * base + d) s else None
    | None => None
    end
  end.

(* s is a numeral for n: at least one digit *)
Definition reads (base : N) (s : string) (n : N) : Prop := s <> EmptyString /\ read_from base 0 s = Some n.
(* ... without superfluous zeros in front *)
Definition numeral (base : N) (s : string) (n : N) : Prop :=
  reads base s n /\ (s = "0"%string \/ forall t, s <> String "0" t).
(* ... of exactly w digits, or more when n needs more *)
Definition padded (base : N) (w : nat) (s : string) (n : N) : Prop :=
  reads base s n /\ (String.length s = w \/ (w < String.length s)%nat /\ numeral base s n).
(* a number of tenths, written with one digit after the point *)
Definition tenths (s : string) (n : N) : Prop :=
  exists a b, s = (a ++ "." ++ b)%string /\ numeral 10 a (n / 10) /\ numeral 10 b (n mod 10).

(* different arguments give different texts *)
Definition distinct_on {A} (P : A -> Prop) (f : A -> string) : Prop :=
  forall x y, P x -> P y -> f x = f y -> x = y.

(* the last character is a digit *)
Fixpoint ends_in_digit (s : string) : bool :=
  match s with
  | EmptyString => false
  | String c EmptyString => match digit_value c with Some _ => true | None => false end
  | String _ s => ends_in_digit s
  end.
