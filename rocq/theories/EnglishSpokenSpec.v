(** English numbers as people say them, on their own: nothing here mentions a grammar.

    Like the names of EnglishNumeralSpec.v with larger scales, with "eleven hundred" to
    "ninety nine hundred" (but not "twenty hundred"), and with "fourty" for "forty".
    "and" can be said anywhere but at the beginning and at the end. *)
From Coq Require Import List NArith Bool String.
From Verif Require Import Text NumeralSpec EnglishNumeralSpec.
Import ListNotations.
Local Open Scope list_scope.
Local Open Scope N_scope.

Definition spoken_ties : list (string * N) := ("fourty"%string, 40) :: tie_names.
Definition small (ws : list text) : option N :=
  match ws with
  | [w] => match named unit_names w with
           | Some n => Some n
           | None => match named teen_names w with Some n => Some n | None => named spoken_ties w end
           end
  | [w; w'] => plus_named (named spoken_ties w) (named unit_names w')
  | _ => None
  end.
(** [k] hundreds and what follows the word. *)
Definition hundreds (k : option N) (r : list text) : option N :=
  match k with
  | None => None
  | Some k => plus_named (Some (100 * k)) (match r with [] => Some 0 | _ => small r end)
  end.
Definition below (ws : list text) : option N :=
  match ws with
  | w :: h :: r => if text_eqb h HUNDRED then hundreds (named unit_names w) r else small ws
  | _ => small ws
  end.
Fixpoint said (scales : list (text * N)) (ws : list text) : option N :=
  match scales with
  | [] => below ws
  | (s, k) :: smaller =>
      match cut s ws with
      | None => said smaller ws
      | Some (a, b) =>
          match below a with
          | None => None
          | Some n => plus_named (Some (n * k)) (match b with [] => Some 0 | _ => said smaller b end)
          end
      end
  end.
Definition spoken_scales : list (text * N) :=
  [(u "sextillion", 10 ^ 21); (u "quintillion", 10 ^ 18); (u "quadrillion", 10 ^ 15)] ++ scale_names.
(** "fifteen hundred", "twenty one hundred and five" *)
Definition many_hundreds (ws : list text) : option N :=
  match ws with
  | w :: h :: r =>
      if text_eqb h HUNDRED then hundreds (named teen_names w) r
      else match r with
           | h' :: r' => if text_eqb h' HUNDRED then hundreds (plus_named (named spoken_ties w) (named unit_names h)) r' else None
           | [] => None
           end
  | _ => None
  end.
Definition spoken_words (ws : list text) : option N :=
  match ws with
  | [w] => if text_eqb w (u "zero") then Some 0 else said spoken_scales ws
  | _ => match said spoken_scales ws with Some n => Some n | None => many_hundreds ws end
  end.
Definition is_and (w : text) : bool := text_eqb w AND.
Definition spoken (y : text) (n : N) : Prop :=
  hd [] (words y) <> AND /\ last (words y) [] <> AND /\
  spoken_words (filter (fun w => negb (is_and w)) (words y)) = Some n.

(** Before a number: nothing, "minus" or "negative"; the sign it is written with. *)
Definition signs : list text := [[]; u "minus"; u "negative"].
Definition with_sign (sign y : text) : text := match sign with [] => y | _ => sign ++ u " " ++ y end.
Definition dash (sign : text) : text := match sign with [] => [] | _ => u "-" end.
(** The text of the token of a spoken number. *)
Definition spoken_token (sign y : text) : text :=
  u "cardinal { " ++ (match sign with [] => [] | _ => u "negative: """ ++ sign ++ u """ " end) ++ u "integer: """ ++ y ++ u """ }".

Example spoken_1 : spoken (u "twenty one hundred and five") 2105 /\ spoken (u "one sextillion and two") (10 ^ 21 + 2)
  /\ spoken (u "zero") 0 /\ spoken (u "fourty two thousand six hundred") 42600 /\ spoken (u "ninety nine") 99.
Proof. repeat split; (vm_compute; discriminate || reflexivity). Qed.
Example spoken_2 : spoken_words (words (u "twenty hundred")) = None /\ spoken_words (words (u "zero five")) = None
  /\ spoken_words (words (u "thousand")) = None /\ spoken_words (words (u "five  six")) = None /\ spoken_words (words []) = None
  /\ spoken_words (words (u "fifteen hundred thousand")) = None /\ spoken_words (words (u "one thousand million")) = None.
Proof. vm_compute. auto 10. Qed.
