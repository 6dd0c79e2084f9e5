(** Spoken Chinese numbers, on their own: nothing here mentions a grammar. *)
From Coq Require Import List NArith Bool String.
From Verif Require Import Text NumeralSpec.
Import ListNotations.
Local Open Scope list_scope.
Local Open Scope N_scope.

(** The words of the digits, with those used on the telephone and in accounts. *)
Definition spoken_digits : list (string * N) :=
  [("一", 1); ("幺", 1); ("壹", 1); ("二", 2); ("两", 2); ("贰", 2); ("三", 3); ("叁", 3); ("四", 4); ("肆", 4); ("五", 5); ("伍", 5);
   ("六", 6); ("陆", 6); ("七", 7); ("柒", 7); ("拐", 7); ("八", 8); ("捌", 8); ("九", 9); ("玖", 9)]%string.
Definition digit_of (c : N) : option N := lookup spoken_digits c.
Definition zero_of (c : N) : bool := text_eqb (u "零") [c] || text_eqb (u "洞") [c].
Definition is (s : string) (c : N) : bool := text_eqb (u s) [c].

(** The first of two answers, and sums and multiples of answers. *)
Definition orelse (a b : option N) : option N := match a with Some n => Some n | None => b end.
Definition plus (a b : option N) : option N := match a, b with Some n, Some m => Some (n + m) | _, _ => None end.
Definition times (k : N) (a : option N) : option N := match a with Some n => Some (k * n) | None => None end.

(** One digit; nothing; something after 零. *)
Definition lone (t : text) : option N := match t with [c] => digit_of c | _ => None end.
Definition nothing (t : text) : option N := match t with [] => Some 0 | _ => None end.
Definition after_zero (f : text -> option N) (t : text) : option N :=
  match t with z :: r => if zero_of z then f r else None | [] => None end.
(** 十, 十五, 二十, 二十五 *)
Definition tens_of (t : text) : option N :=
  match t with
  | a :: r =>
      if is "十" a then plus (Some 10) (orelse (lone r) (nothing r))
      else match r with
           | b :: r' => if is "十" b then plus (times 10 (digit_of a)) (orelse (lone r') (nothing r')) else None
           | [] => None
           end
  | [] => None
  end.
(** 一百, 一百一 (110), 一百零一, 一百一十, 一百十一: what is after the unit, and the whole *)
Definition with_unit (unit : string) (k : N) (rest : text -> option N) (t : text) : option N :=
  match t with a :: b :: r => if is unit b then plus (times k (digit_of a)) (rest r) else None | _ => None end.
Definition after_hundred (r : text) : option N :=
  orelse (tens_of r) (orelse (after_zero lone r) (orelse (times 10 (lone r)) (nothing r))).
Definition hundreds_of : text -> option N := with_unit "百" 100 after_hundred.
(** 一千, 一千一 (1100), 一千零一, 一千零一十, 一千一百 ... *)
Definition after_thousand (r : text) : option N :=
  orelse (hundreds_of r) (orelse (after_zero tens_of r) (orelse (after_zero lone r) (orelse (times 100 (lone r)) (nothing r)))).
Definition thousands_of : text -> option N := with_unit "千" 1000 after_thousand.
(** 1 to 9999 *)
Definition section (t : text) : option N := orelse (thousands_of t) (orelse (hundreds_of t) (orelse (tens_of t) (lone t))).
(** After 万: nothing, 五 (5000), 零五, 零五十, 零五百, 五千 ... *)
Definition after_wan (r : text) : option N :=
  orelse (thousands_of r) (orelse (after_zero hundreds_of r) (orelse (after_zero tens_of r)
    (orelse (after_zero lone r) (orelse (times 1000 (lone r)) (nothing r))))).
(** What is before and after the first 万. *)
Fixpoint cut_at (s : string) (t : text) : option (text * text) :=
  match t with
  | [] => None
  | c :: r => if is s c then Some ([], r) else match cut_at s r with Some (a, b) => Some (c :: a, b) | None => None end
  end.
(** 0 to 99999999 *)
Definition spoken_number (t : text) : option N :=
  match cut_at "万" t with
  | Some (a, b) => plus (times 10000 (section a)) (after_wan b)
  | None => match t with [z] => if zero_of z then Some 0 else section t | _ => section t end
  end.

Example spoken_zh_1 : spoken_number (u "三千二百万零五") = Some 32000005 /\ spoken_number (u "两万五") = Some 25000
  /\ spoken_number (u "一千零十五") = Some 1015 /\ spoken_number (u "一百一") = Some 110 /\ spoken_number (u "洞") = Some 0
  /\ spoken_number (u "十") = Some 10 /\ spoken_number (u "一百万五") = Some 1005000 /\ spoken_number (u "九千九百九十九万九千九百九十九") = Some 99999999.
Proof. vm_compute. auto 12. Qed.
Example spoken_zh_2 : spoken_number (u "一百零") = None /\ spoken_number (u "万") = None /\ spoken_number (u "一二") = None
  /\ spoken_number (u "一千一十") = None /\ spoken_number [] = None /\ spoken_number (u "零五") = None /\ spoken_number (u "一万万") = None
  /\ spoken_number (u "一万五百") = None.
Proof. vm_compute. auto 12. Qed.

(** With 万 left in: after it nothing, or a number below ten thousand said on its own; 零
    may come first. *)
Definition own_number (t : text) : option N := match t with [z] => if zero_of z then Some 0 else section t | _ => section t end.
Definition said_after_wan (b e : text) (j : N) : Prop :=
  exists b', (b = b' \/ b = u "零" ++ b') /\ (b' = [] /\ e = [] /\ j = 0 \/ own_number b' = Some j /\ decimal e j).
Definition said_wan (x d : text) (n : N) : Prop :=
  exists a b k e1 e2 j, x = a ++ u "万" ++ b /\ section a = Some k /\ 100 <= k /\ decimal e1 k /\ said_after_wan b e2 j /\
    d = e1 ++ u "万" ++ e2 /\ n = 10000 * k + j.
(** 兆 and 亿 are written as they are said; 零 may follow them. *)
Definition in_units (unit : string) (below : text -> text -> N -> Prop) (x d : text) (n : N) : Prop :=
  x = [] /\ d = [] /\ n = 0 \/
  exists x' d' z, x = x' ++ u unit ++ z /\ (z = [] \/ z = u "零") /\ d = d' ++ u unit /\ below x' d' n.
Definition said_large (below : text -> text -> N -> Prop) (x d : text) (n : N) : Prop :=
  exists x1 x2 x3 d1 d2 d3 n1 n2 n3, x = x1 ++ x2 ++ x3 /\ d = d1 ++ d2 ++ d3 /\ n = 1000000000000 * n1 + 100000000 * n2 + n3 /\
    in_units "兆" below x1 d1 n1 /\ in_units "亿" below x2 d2 n2 /\ below x3 d3 n3.
(** Below 10^8, with and without the option that writes millions in digits. *)
Definition said_below (million : bool) (x d : text) (n : N) : Prop :=
  spoken_number x = Some n /\ (million = true \/ n < 1000000) /\ decimal d n \/ million = false /\ said_wan x d n.
