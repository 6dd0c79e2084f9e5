(** Spoken English ordinals, on their own: nothing here mentions a grammar. *)
From Coq Require Import List NArith Bool String.
From Verif Require Import Text NumeralSpec EnglishNumeralSpec EnglishSpokenSpec.
Import ListNotations.
Local Open Scope list_scope.
Local Open Scope N_scope.

(** The ordinal of a number word: "first", "fifth", "twentieth", "sixth", "hundredth". *)
Definition irregular : list (string * string) :=
  [("one", "first"); ("two", "second"); ("three", "third"); ("five", "fifth"); ("eight", "eighth"); ("nine", "ninth"); ("twelve", "twelfth")]%string.
Definition ordinal_word (w : text) : text :=
  match find (fun e => text_eqb (u (Datatypes.fst e)) w) irregular with
  | Some e => u (snd e)
  | None => if last w 0 =? 121 then removelast w ++ u "ieth" else w ++ u "th"
  end.
(** [y] is the ordinal of [c]: its last word is put into the ordinal. *)
Definition ordinal_of (c y : text) : Prop :=
  exists p w, c = p ++ w /\ (p = [] \/ exists q, p = q ++ u " ") /\ ~ In 32 w /\ y = p ++ ordinal_word w.
(** What is written after the digits of an ordinal. *)
Definition ordinal_suffix (n : N) : text :=
  if (11 <=? n mod 100) && (n mod 100 <=? 13) then u "th"
  else if n mod 10 =? 1 then u "st"
  else if n mod 10 =? 2 then u "nd"
  else if n mod 10 =? 3 then u "rd"
  else u "th".
(** The text of the token of a spoken ordinal. *)
Definition ordinal_token (y : text) : text := u "ordinal { integer: """ ++ y ++ u """ }".

Example ordinal_1 : ordinal_of (u "one hundred and twenty one") (u "one hundred and twenty first") /\ ordinal_of (u "ninety") (u "ninetieth").
Proof.
  split; [exists (u "one hundred and twenty "), (u "one")|exists [], (u "ninety")]; (split; [reflexivity|]); (split; [|split; [vm_compute; intuition discriminate|reflexivity]]).
  - right. now exists (u "one hundred and twenty").
  - now left.
Qed.
Example ordinal_2 : map ordinal_suffix [1; 2; 3; 4; 11; 12; 13; 21; 102; 111; 113; 1003; 30] =
  map u ["st"; "nd"; "rd"; "th"; "th"; "th"; "th"; "st"; "nd"; "th"; "th"; "rd"; "th"]%string.
Proof. reflexivity. Qed.
