(** Weighted transducers as pynini builds them.  A graph is kept as the expression that
    builds it, and means a relation between texts with weights.

    Simplifications.  Labels are code points where pynini has the bytes of their UTF-8
    form: every string, table and character class in the grammars is made of whole
    characters.  A weight is an integer, in ten-thousandths (the grammars' weights have at
    most four decimals); float rounding is left out.  optimize() is left out: it keeps, for
    each pair of texts, the least weight.  Model only. *)
From Coq Require Import List NArith ZArith Bool String Ascii.
From Verif Require Import Text.
Import ListNotations.
Local Open Scope list_scope.

Definition rel := text -> text -> Z -> Prop.

(** closure: a.star *)
Inductive star (r : rel) : rel :=
| star_nil : star r [] [] 0%Z
| star_app x y w x' y' w' : r x y w -> star r x' y' w' -> star r (x ++ x') (y ++ y') (w + w')%Z.

(** utf8.VALID_UTF8_CHAR: any character but U+0000 (label 0 is epsilon). *)
Definition vchar (c : N) : bool :=
  ((1 <=? c) && (c <? 55296) || (57344 <=? c) && (c <? 1114112))%N%bool.

(** A context of a rewrite rule: none, "[BOS]" or "[EOS]", one character of a class. *)
Inductive context := Anywhere | Edge | Next (p : N -> bool).
Definition left_ok (l : context) (out : text) : Prop :=
  match l with
  | Anywhere => True
  | Edge => out = []
  | Next p => exists o c, out = o ++ [c] /\ p c = true
  end.
Definition right_ok (r : context) (rest : text) : Prop :=
  match r with
  | Anywhere => True
  | Edge => rest = []
  | Next p => exists c o, rest = c :: o /\ p c = true
  end.

(** cdrewrite(tau, l, r, VSIGMA), the default direction "ltr" and mode "obl" (Mohri and
    Sproat): from left to right, a match must be replaced where the text written so far
    ends in the left context and the text to come starts with the right one; elsewhere a
    character is copied.  If several matches start at one place, any may be taken.
    [out] is what has been written.  Empty matches never count (build_rule("") is the
    identity). *)
Inductive rewritten (tau : rel) (l r : context) : text -> text -> text -> Z -> Prop :=
| rw_end out : rewritten tau l r out [] [] 0%Z
| rw_match out p q w rest y v :
    p <> [] -> tau p q w -> left_ok l out -> right_ok r rest ->
    forallb vchar p = true -> forallb vchar q = true ->
    rewritten tau l r (out ++ q) rest y v ->
    rewritten tau l r out (p ++ rest) (q ++ y) (w + v)%Z
| rw_copy out c rest y v :
    (forall p q w rest', c :: rest = p ++ rest' -> p <> [] -> tau p q w ->
       ~ (left_ok l out /\ right_ok r rest')) ->
    vchar c = true ->
    rewritten tau l r (out ++ [c]) rest y v ->
    rewritten tau l r out (c :: rest) (c :: y) v.

Inductive fst :=
| Cross (x y : text)               (* cross(x, y) *)
| Class (p : N -> bool)            (* an acceptor of one character *)
| Table (l : list (text * text))   (* string_file *)
| Union (a b : fst)                (* a | b *)
| Cat (a b : fst)                  (* a + b *)
| Star (a : fst)                   (* a.star *)
| Weight (w : Z) (a : fst)         (* add_weight(a, w) *)
| Compose (a b : fst)              (* a @ b *)
| Input (a : fst)                  (* a.copy().project("input") *)
| Erase (a : fst)                  (* pynutil.delete(a) *)
| Except (a : fst)                 (* difference(VCHAR.star, a.project("input")) *)
| Rewrite (tau : fst) (l r : context).

Fixpoint denote (e : fst) : rel :=
  match e with
  | Cross x y => fun a b w => a = x /\ b = y /\ w = 0%Z
  | Class p => fun a b w => exists c, a = [c] /\ b = [c] /\ p c = true /\ w = 0%Z
  | Table l => fun a b w => In (a, b) l /\ w = 0%Z
  | Union a b => fun x y w => denote a x y w \/ denote b x y w
  | Cat a b => fun x y w => exists x1 y1 w1 x2 y2 w2,
      x = x1 ++ x2 /\ y = y1 ++ y2 /\ w = (w1 + w2)%Z /\ denote a x1 y1 w1 /\ denote b x2 y2 w2
  | Star a => star (denote a)
  | Weight k a => fun x y w => exists v, w = (v + k)%Z /\ denote a x y v
  | Compose a b => fun x z w => exists y w1 w2, w = (w1 + w2)%Z /\ denote a x y w1 /\ denote b y z w2
  | Input a => fun x y w => x = y /\ exists z, denote a x z w
  | Erase a => fun x y w => y = [] /\ exists z, denote a x z w
  | Except a => fun x y w => y = x /\ w = 0%Z /\ forallb vchar x = true /\ forall z v, ~ denote a x z v
  | Rewrite tau l r => rewritten (denote tau) l r []
  end.

(** Derived forms. *)
Definition accep (t : text) : fst := Cross t t.
Definition insert (t : text) : fst := Cross [] t.
Definition delete (t : text) : fst := Cross t [].
Definition ques (a : fst) : fst := Union a (Cross [] []).
Definition plus (a : fst) : fst := Cat a (Star a).
Fixpoint power (a : fst) (n : nat) : fst :=
  match n with O => Cross [] [] | S O => a | S m => Cat a (power a m) end.
Declare Scope fst_scope.
Delimit Scope fst_scope with fst.
Bind Scope fst_scope with fst.
Notation "a + b" := (Cat a b) : fst_scope.
Notation "a ∪ b" := (Union a b) (at level 54, left associativity) : fst_scope.
Notation "a @ b" := (Compose a b) (at level 40, left associativity) : fst_scope.
Notation "a ** n" := (power a n) (at level 30, right associativity) : fst_scope.

(** string_file: one entry per line, the sides separated by a tab; one side only: both. *)
Fixpoint split_tab (l : text) : text * option text :=
  match l with
  | [] => ([], None)
  | c :: r => if (c =? 9)%N then ([], Some r)
              else let '(a, b) := split_tab r in (c :: a, b)
  end.
Definition entry (line : string) : text * text :=
  match split_tab (u line) with (a, Some b) => (a, b) | (a, None) => (a, a) end.
Definition string_file (lines : list string) : fst := Table (map entry lines).
