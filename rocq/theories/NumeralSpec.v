(** Decimal numbers and Chinese numerals, on their own: nothing here mentions a grammar. *)
From Coq Require Import List NArith Bool String.
From Verif Require Import Text.
Import ListNotations.
Local Open Scope N_scope.

(** A decimal number as written: digits, no zero in front unless it is the only digit. *)
Definition digit_char (c : N) : Prop := 48 <= c <= 57.
Definition decimal_value (t : text) : N := fold_left (fun n c => 10 * n + (c - 48)) t 0.
Definition decimal (t : text) (n : N) : Prop :=
  t <> [] /\ Forall digit_char t /\ (hd 0 t = 48 -> t = [48]) /\ decimal_value t = n.

(** The value of a Chinese numeral, read from left to right.

    A digit multiplies the unit word after it (十 ten, 百 hundred, 千 thousand); 万 (10^4)
    and 亿 (10^8) multiply the section before them.  Units come in descending order, and
    零 marks skipped places: where a place is skipped 零 has to be there.  A digit with no
    unit after it counts ones if it stands alone, after 十 or after 零, and otherwise the
    place below the last unit (一百一 is 110).  十 alone begins a number at ten.  两 is two. *)
Record reading := Rd {
  rd_done : N;             (* the sections closed by 万 or 亿 *)
  rd_section : N;          (* the current section *)
  rd_digit : option N;     (* a digit still without unit *)
  rd_unit : option N;      (* the last unit word *)
  rd_zero : bool;          (* 零 since then *)
  rd_open : bool;          (* a section begun right after 亿, which 万 has to close *)
  rd_big : option N }.     (* the last of 万 and 亿 *)
Definition rd_start : reading := Rd 0 0 None None false false None.

Definition lookup {A} (words : list (string * A)) (c : N) : option A :=
  match find (fun e => text_eqb (u (Datatypes.fst e)) [c]) words with
  | Some e => Some (snd e) | None => None
  end.
Local Open Scope string_scope.
Definition digit_words : list (string * N) :=
  [("一", 1); ("二", 2); ("两", 2); ("三", 3); ("四", 4); ("五", 5); ("六", 6); ("七", 7); ("八", 8); ("九", 9)].
Definition unit_words : list (string * N) := [("十", 10); ("百", 100); ("千", 1000)].
Definition big_words : list (string * N) := [("万", 10000); ("亿", 100000000)].
Definition is_zero (c : N) : bool := text_eqb (u "零") [c].
Local Close Scope string_scope.

(** What the digits after the last unit count. *)
Definition rd_rest (s : reading) : option N :=
  match rd_digit s, rd_unit s with
  | None, None => if rd_zero s then Some 0 else None
  | None, Some _ => if rd_zero s then None else Some 0
  | Some d, None => Some d
  | Some d, Some w => Some (if rd_zero s || (w =? 10) then d else d * (w / 10))
  end.
Definition read_word (s : reading) (c : N) : option reading :=
  let 'Rd done section digit unit zero opened big := s in
  if is_zero c then
    match digit with
    | None => if zero then None else Some (Rd done section None unit true opened big)
    | Some _ => None
    end
  else match lookup digit_words c with
  | Some d =>
      match digit, unit with
      | None, None => if zero then None else Some (Rd done section (Some d) unit zero opened big)
      | None, Some _ => Some (Rd done section (Some d) unit zero opened big)
      | Some _, _ => None
      end
  | None =>
  match lookup unit_words c with
  | Some w =>
      match digit, unit with
      | None, None => if (w =? 10) && negb zero then Some (Rd done 10 None (Some 10) false opened big) else None
      | None, Some _ => None
      | Some d, None => Some (Rd done (section + d * w) None (Some w) false opened big)
      | Some d, Some last =>
          let after_yi := (last =? 100000000) && (w =? 1000) in
          if (w <? last) && (zero || (w * 10 =? last) || after_yi)
          then Some (Rd done (section + d * w) None (Some w) false (opened || (after_yi && negb zero)) big)
          else None
      end
  | None =>
  match lookup big_words c with
  | Some b =>
      match rd_rest s with
      | None => None
      | Some r =>
          let n := section + r in
          if (0 <? n) && (n <? 10000) && match big with None => true | Some b' => b <? b' end
          then Some (Rd (done + n * b) 0 None (Some b) false false (Some b))
          else None
      end
  | None => None
  end end end.
Fixpoint read_words (s : reading) (t : text) : option reading :=
  match t with
  | [] => Some s
  | c :: r => match read_word s c with Some s' => read_words s' r | None => None end
  end.
Definition rd_value (s : reading) : option N :=
  if rd_open s then None
  else match rd_rest s with Some r => Some (rd_done s + rd_section s + r) | None => None end.
Definition chinese_value (t : text) : option N :=
  match read_words rd_start t with Some s => rd_value s | None => None end.

Example value_1 : chinese_value (u "一亿零三百二十万零五") = Some 103200005.
Proof. reflexivity. Qed.
Example value_2 : chinese_value (u "两千零一") = Some 2001 /\ chinese_value (u "两千一") = Some 2100
  /\ chinese_value (u "十五万") = Some 150000 /\ chinese_value (u "零") = Some 0.
Proof. repeat split; reflexivity. Qed.
Example value_3 : chinese_value (u "一千一十") = None /\ chinese_value (u "一亿一千") = None
  /\ chinese_value (u "一十百") = None /\ chinese_value (u "一百零") = None /\ chinese_value [] = None.
Proof. repeat split; reflexivity. Qed.
