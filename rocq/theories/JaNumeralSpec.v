(** Japanese numerals and how numbers are written with digits (C71), on their own: nothing here
    mentions a grammar. *)
From Coq Require Import List NArith Bool String.
From Verif Require Import Text NumeralSpec.
Import ListNotations.
Local Open Scope N_scope.

(** The value of a Japanese numeral, read from left to right.  A digit multiplies the unit word
    after it (十 ten, 百 hundred, 千 thousand); a unit word without a digit counts once; the units of
    a section come in descending order.  万 (10^4) and 億 (10^8) multiply the section before them
    and come in descending order too.  A digit at the end counts ones.  〇 is zero. *)
Record ja_reading := Jr {
  jr_done : N;             (* the sections closed by 万 or 億 *)
  jr_section : N;          (* the current section *)
  jr_digit : option N;     (* a digit still without unit *)
  jr_unit : N;             (* units have to be below this one *)
  jr_big : N }.            (* and 万 and 億 below this one *)
Definition jr_start : ja_reading := Jr 0 0 None 10000 1000000000000.
Local Open Scope string_scope.
Definition ja_digit_words : list (string * N) :=
  [("一", 1); ("二", 2); ("三", 3); ("四", 4); ("五", 5); ("六", 6); ("七", 7); ("八", 8); ("九", 9)].
Definition ja_unit_words : list (string * N) := [("十", 10); ("百", 100); ("千", 1000)].
Definition ja_big_words : list (string * N) := [("万", 10000); ("億", 100000000)].
Local Close Scope string_scope.
Definition jr_ones (s : ja_reading) : N := match jr_digit s with Some d => d | None => 0 end.
Definition ja_word (s : ja_reading) (c : N) : option ja_reading :=
  let 'Jr done section digit unit big := s in
  match lookup ja_digit_words c with
  | Some d => match digit with None => Some (Jr done section (Some d) unit big) | Some _ => None end
  | None =>
  match lookup ja_unit_words c with
  | Some w => if w <? unit then Some (Jr done (section + match digit with Some d => d | None => 1 end * w) None w big) else None
  | None =>
  match lookup ja_big_words c with
  | Some b => if (0 <? section + jr_ones s) && (b <? big) then Some (Jr (done + (section + jr_ones s) * b) 0 None 10000 b) else None
  | None => None
  end end end.
Fixpoint ja_words (s : ja_reading) (t : text) : option ja_reading :=
  match t with
  | [] => Some s
  | c :: t => match ja_word s c with Some s' => ja_words s' t | None => None end
  end.
Definition japanese_value (t : text) : option N :=
  if text_eqb t (u "〇") then Some 0
  else match ja_words jr_start t with
  | Some s => let n := jr_done s + jr_section s + jr_ones s in if 0 <? n then Some n else None
  | None => None
  end.

(** The digits [t] as written: without commas, or with one before every three digits. *)
Definition grouped (t x : text) : Prop :=
  x = t
  \/ (exists p q, (1 <= List.length p <= 3)%nat /\ List.length q = 3%nat /\ t = p ++ q /\ x = p ++ u "," ++ q)
  \/ (exists p q r, (1 <= List.length p <= 3)%nat /\ List.length q = 3%nat /\ List.length r = 3%nat /\
        t = p ++ q ++ r /\ x = p ++ u "," ++ q ++ u "," ++ r).

(** A year: four digits without a leading zero, with or without a comma. *)
Definition year_of (t a : text) : Prop := List.length t = 4%nat /\ Forall digit_char t /\ hd 0 t <> 48 /\ grouped t a.
(** A month written with a leading zero. *)
Definition zero_month (x : text) : Prop := exists c, 49 <= c <= 57 /\ x = [48; c].
(** How signs and the digits after the point are said. *)
Definition ja_sign_words (s : text) : option text :=
  if text_eqb s [] then Some []
  else if text_eqb s (u "+") then Some (u "プラス")
  else if text_eqb s (u "-") then Some (u "マイナス")
  else if text_eqb s (u "±") then Some (u "プラスマイナス")
  else None.
Local Open Scope string_scope.
Definition ja_digit_names : list string := ["〇"; "一"; "二"; "三"; "四"; "五"; "六"; "七"; "八"; "九"].
Local Close Scope string_scope.
Definition ja_digit_word (c : N) : text := u (nth (N.to_nat (c - 48)) ja_digit_names ""%string).
Definition ja_point_words (f : text) : text := match f with [] => [] | _ => u "点" ++ flat_map ja_digit_word f end.

Example value_1 : japanese_value (u "千二百三万四千五十六") = Some 12034056. Proof. vm_compute. reflexivity. Qed.
Example value_2 : japanese_value (u "〇") = Some 0 /\ japanese_value (u "十") = Some 10 /\ japanese_value (u "百一") = Some 101 /\
  japanese_value (u "一万") = Some 10000 /\ japanese_value (u "万") = None /\ japanese_value (u "十百") = None /\ japanese_value (u "一億") = Some 100000000.
Proof. vm_compute. repeat split. Qed.
