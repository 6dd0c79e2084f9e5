(** English number names, on their own: nothing here mentions a grammar.

    A name is a sequence of words with one space between them.  Below a hundred: a unit, a
    teen, a multiple of ten, or a multiple of ten and a unit.  Below a thousand: that, or a
    unit and "hundred", perhaps followed by a name below a hundred, with or without "and".
    Above: a name below a thousand and a scale word, followed by nothing, by a number name of
    the smaller scales, or by "and" and a name below a hundred.  At the beginning "thousand"
    can stand without "one".  "zero" stands alone. *)
From Coq Require Import List NArith ZArith Bool String.
From Verif Require Import Text NumeralSpec.
Import ListNotations.
Local Open Scope list_scope.
Local Open Scope N_scope.

(** The pieces between spaces; "a  b" has an empty one. *)
Fixpoint words (t : text) : list text :=
  match t with
  | [] => [[]]
  | c :: r => if c =? 32 then [] :: words r
              else match words r with [] => [[c]] | w :: ws => (c :: w) :: ws end
  end.
Local Open Scope string_scope.
Definition unit_names : list (string * N) :=
  [("one", 1); ("two", 2); ("three", 3); ("four", 4); ("five", 5); ("six", 6); ("seven", 7); ("eight", 8); ("nine", 9)].
Definition teen_names : list (string * N) :=
  [("ten", 10); ("eleven", 11); ("twelve", 12); ("thirteen", 13); ("fourteen", 14); ("fifteen", 15);
   ("sixteen", 16); ("seventeen", 17); ("eighteen", 18); ("nineteen", 19)].
Definition tie_names : list (string * N) :=
  [("twenty", 20); ("thirty", 30); ("forty", 40); ("fifty", 50); ("sixty", 60); ("seventy", 70); ("eighty", 80); ("ninety", 90)].
Definition HUNDRED : text := u "hundred".
Definition THOUSAND : text := u "thousand".
Definition AND : text := u "and".
Definition scale_names : list (text * N) :=
  [(u "trillion", 10 ^ 12); (u "billion", 10 ^ 9); (u "million", 10 ^ 6); (THOUSAND, 10 ^ 3)].
Local Close Scope string_scope.
Definition named (names : list (string * N)) (w : text) : option N :=
  match find (fun e => text_eqb (u (fst e)) w) names with Some e => Some (snd e) | None => None end.
Definition plus_named (n : option N) (m : option N) : option N :=
  match n, m with Some n, Some m => Some (n + m) | _, _ => None end.

Definition below_hundred (ws : list text) : option N :=
  match ws with
  | [w] => match named unit_names w with
           | Some n => Some n
           | None => match named teen_names w with Some n => Some n | None => named tie_names w end
           end
  | [w; w'] => plus_named (named tie_names w) (named unit_names w')
  | _ => None
  end.
Definition below_thousand (ws : list text) : option N :=
  match ws with
  | w :: h :: r =>
      if text_eqb h HUNDRED then
        match named unit_names w with
        | None => None
        | Some n =>
            match r with
            | [] => Some (100 * n)
            | a :: r' => plus_named (Some (100 * n)) (below_hundred (if text_eqb a AND then r' else r))
            end
        end
      else below_hundred ws
  | _ => below_hundred ws
  end.
(** What is before and after the first [s]. *)
Fixpoint cut (s : text) (ws : list text) : option (list text * list text) :=
  match ws with
  | [] => None
  | w :: r => if text_eqb w s then Some ([], r)
              else match cut s r with Some (a, b) => Some (w :: a, b) | None => None end
  end.
Fixpoint scaled (start : bool) (scales : list (text * N)) (ws : list text) : option N :=
  match scales with
  | [] => below_thousand ws
  | (s, k) :: smaller =>
      match cut s ws with
      | None => scaled start smaller ws
      | Some (a, b) =>
          match (if start && text_eqb s THOUSAND && match a with [] => true | _ => false end
                 then Some 1 else below_thousand a) with
          | None => None
          | Some n =>
              match b with
              | [] => Some (n * k)
              | w :: r => plus_named (Some (n * k)) (if text_eqb w AND then below_hundred r else scaled false smaller b)
              end
          end
      end
  end.
Definition english_value (t : text) : option N :=
  if text_eqb t (u "zero") then Some 0 else scaled true scale_names (words t).

(** A number as written: its digits, or with a comma before every three digits from the end. *)
Definition written (t : text) (n : N) : Prop :=
  decimal t n \/
  exists first groups, t = first ++ List.concat (map (cons 44) groups) /\ (1 <= List.length first <= 3)%nat /\
    Forall (fun g => List.length g = 3%nat) groups /\ decimal (first ++ List.concat groups) n.

(** Of the results of [x], each with a cost, [y] has the least cost, and it alone. *)
Definition cheapest (results : text -> text -> Z -> Prop) (x y : text) : Prop :=
  exists w, results x y w /\ forall z v, results x z v -> (w <= v)%Z /\ (v = w -> z = y).
(** The text of a cardinal token. *)
Definition cardinal_token (negative : bool) (t : text) : text :=
  u "cardinal { " ++ (if negative then u "negative: ""-"" " else []) ++ u "integer: """ ++ t ++ u """ }".

Example english_1 : english_value (u "two million five thousand one hundred and twelve") = Some 2005112
  /\ english_value (u "thousand and five") = Some 1005 /\ english_value (u "one hundred five") = Some 105
  /\ english_value (u "ninety nine billion") = Some 99000000000 /\ english_value (u "zero") = Some 0
  /\ english_value (u "six hundred thousand") = Some 600000.
Proof. vm_compute. auto 10. Qed.
Example english_2 : english_value (u "five hundred and billion") = None /\ english_value (u "five million and six hundred") = None
  /\ english_value (u "two thousand million") = None /\ english_value (u "million") = None /\ english_value (u "five  six") = None
  /\ english_value (u "five six") = None /\ english_value (u "one million thousand") = None /\ english_value [] = None
  /\ english_value (u "two hundred and") = None /\ english_value (u "zero five") = None.
Proof. vm_compute. auto 20. Qed.
