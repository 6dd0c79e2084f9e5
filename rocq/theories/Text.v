(** Text as lists of Unicode code points, and the Python string helpers used
    throughout the code base.  Nothing here is specific to one module. *)
From Coq Require Import List NArith Ascii String Bool.
Import ListNotations.
Local Open Scope N_scope.

(** A Python [str]: a list of code points. *)
Definition text := list N.

(** Readable literals: [u "..."] decodes the UTF-8 bytes of a Coq string
    literal into code points (only well-formed literals are ever written). *)
Fixpoint bytes_of (s : string) : list N :=
  match s with
  | EmptyString => []
  | String c r => N_of_ascii c :: bytes_of r
  end.

Fixpoint utf8_decode (bs : list N) : text :=
  match bs with
  | [] => []
  | b :: r =>
      if b <? 128 then b :: utf8_decode r
      else if b <? 224 then
        match r with
        | b1 :: r1 => ((b - 192) * 64 + (b1 - 128)) :: utf8_decode r1
        | [] => []
        end
      else if b <? 240 then
        match r with
        | b1 :: b2 :: r2 =>
            ((b - 224) * 4096 + (b1 - 128) * 64 + (b2 - 128)) :: utf8_decode r2
        | _ => []
        end
      else
        match r with
        | b1 :: b2 :: b3 :: r3 =>
            ((b - 240) * 262144 + (b1 - 128) * 4096 + (b2 - 128) * 64 + (b3 - 128))
              :: utf8_decode r3
        | _ => []
        end
  end.

Definition u (s : string) : text := utf8_decode (bytes_of s).

Arguments u s%string.

(** Equality test on text (Python [==] on [str]). *)
Fixpoint text_eqb (a b : text) : bool :=
  match a, b with
  | [], [] => true
  | x :: a', y :: b' => (x =? y) && text_eqb a' b'
  | _, _ => false
  end.

(** Python [x in xs] for a list of strings. *)
Fixpoint text_mem (x : text) (xs : list text) : bool :=
  match xs with
  | [] => false
  | y :: r => text_eqb x y || text_mem x r
  end.

(** Python [d.get(k)] / [k in d] for an insertion-ordered dict. *)
Fixpoint dict_get {A} (k : text) (d : list (text * A)) : option A :=
  match d with
  | [] => None
  | (k', v) :: r => if text_eqb k k' then Some v else dict_get k r
  end.

(** Python [sep.join(parts)]. *)
Fixpoint join (sep : text) (parts : list text) : text :=
  match parts with
  | [] => []
  | [x] => x
  | x :: r => x ++ sep ++ join sep r
  end.

(** Python slice [t[a:b]] for [0 <= a <= b]. *)
Definition slice {A} (t : list A) (a b : nat) : list A := firstn (b - a) (skipn a t).

(** Characters the code mentions by name. *)
Definition SP : N := 32.      (* space *)
Definition QUOTE : N := 34.   (* double quote *)
Definition BSL : N := 92.     (* backslash *)
Definition LBRACE : N := 123.
Definition RBRACE : N := 125.
Definition COLON : N := 58.
