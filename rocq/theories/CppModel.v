(** Transcription of the C++ runtime: runtime/utils/wetext_string.cc,
    runtime/processor/wetext_token_parser.{h,cc} and the choice of the parse type in
    runtime/processor/wetext_processor.cc.  A [std::string] is a list of bytes. *)
From Coq Require Import List NArith Bool Arith String.
From Verif Require Import Text.
Import ListNotations.
Local Open Scope list_scope.

(** Outcomes: a value, a thrown [std::invalid_argument], a failed CHECK or
    LOG(FATAL) (both end the process), an out-of-range [operator[]] (undefined
    behaviour), and a loop longer than the fuel given.  The last two are shown
    unreachable. *)
Inductive cres (A : Type) := Ret (a : A) | Throw | Fatal | Undefined | Stuck.
Arguments Ret {A} a.
Arguments Throw {A}.
Arguments Fatal {A}.
Arguments Undefined {A}.
Arguments Stuck {A}.
Definition cbind {A B} (r : cres A) (f : A -> cres B) : cres B :=
  match r with
  | Ret a => f a | Throw => Throw | Fatal => Fatal | Undefined => Undefined | Stuck => Stuck
  end.
Notation "x <~ r ;; k" := (cbind r (fun x => k))
  (at level 61, r at next level, right associativity).
Notation "' p <~ r ;; k" := (cbind r (fun x => let p := x in k))
  (at level 61, p pattern, r at next level, right associativity).

(** * wetext_string.cc *)

(** WHITESPACE, wetext_string.cc:20: space, \n, \r, \t, \f, \v. *)
Definition WHITESPACE : list N := [32; 10; 13; 9; 12; 11]%N.

(** UTF8CharLength, wetext_string.cc:22-44.  [ch] is a (possibly signed) char; masked
    with 0xF8 or less it equals the masked byte, so the byte is used. *)
Definition utf8_char_length (ch : N) : cres nat :=
  if (N.land ch 248 <=? 240)%N then
    Ret (if (N.land ch 128 =? 0)%N then 1
         else if (N.land ch 224 =? 192)%N then 2
         else if (N.land ch 240 =? 224)%N then 3
         else if (N.land ch 248 =? 240)%N then 4
         else 1)
  else Fatal.

(** UTF8StringLength, wetext_string.cc:46-54: [rest] is the string from position [i].
    The counter is not bounded (an [int] in C++). *)
Fixpoint utf8_length_loop (fuel : nat) (rest : list N) (len : nat) : cres nat :=
  match fuel with
  | O => Stuck
  | S f =>
      match rest with
      | [] => Ret len
      | c :: _ => n <~ utf8_char_length c ;; utf8_length_loop f (skipn n rest) (S len)
      end
  end.
Definition utf8_string_length (str : list N) : cres nat :=
  utf8_length_loop (S (List.length str)) str 0.

(** SplitUTF8StringToChars, wetext_string.cc:56-64; [substr] stops at the end. *)
Fixpoint split_chars_loop (fuel : nat) (rest : list N) (chars : list (list N)) : cres (list (list N)) :=
  match fuel with
  | O => Stuck
  | S f =>
      match rest with
      | [] => Ret chars
      | c :: _ =>
          n <~ utf8_char_length c ;;
          split_chars_loop f (skipn n rest) (chars ++ [firstn n rest])
      end
  end.
Definition split_chars (str : list N) : cres (list (list N)) :=
  split_chars_loop (S (List.length str)) str [].

(** [find_first_not_of] and Ltrim, wetext_string.cc:66-69. *)
Definition white (c : N) : bool := existsb (N.eqb c) WHITESPACE.
Fixpoint find_first_not_of (str : list N) (i : nat) : option nat :=
  match str with
  | [] => None
  | c :: r => if white c then find_first_not_of r (S i) else Some i
  end.
Definition ltrim (str : list N) : list N :=
  match find_first_not_of str 0 with None => [] | Some start => skipn start str end.

(** [find_last_not_of] and Rtrim, wetext_string.cc:71-74. *)
Fixpoint find_last_not_of (str : list N) (i : nat) : option nat :=
  match str with
  | [] => None
  | c :: r =>
      match find_last_not_of r (S i) with
      | Some e => Some e
      | None => if white c then None else Some i
      end
  end.
Definition rtrim (str : list N) : list N :=
  match find_last_not_of str 0 with None => [] | Some e => firstn (e + 1) str end.

(** Trim, wetext_string.cc:76. *)
Definition trim (str : list N) : list N := rtrim (ltrim str).

(** [std::string::find]. *)
Fixpoint is_prefix (p s : list N) : bool :=
  match p, s with
  | [], _ => true
  | x :: p', y :: s' => (x =? y)%N && is_prefix p' s'
  | _ :: _, [] => false
  end.
Fixpoint find (s p : list N) (i : nat) : option nat :=
  if is_prefix p s then Some i
  else match s with [] => None | _ :: r => find r p (S i) end.

(** Split, wetext_string.cc:78-87, appending to [output]. *)
Fixpoint split_loop (fuel : nat) (s delim : list N) (output : list (list N)) : cres (list (list N)) :=
  match fuel with
  | O => Stuck
  | S f =>
      match find s delim 0 with
      | Some pos => split_loop f (skipn (pos + List.length delim) s) delim (output ++ [firstn pos s])
      | None => Ret (output ++ [s])
      end
  end.

(** * wetext_token_parser *)

(** EOS, wetext_token_parser.cc:23, and the character sets, :24-30. *)
Definition EOS : list N := u "<EOS>".
Definition UTF8_WHITESPACE : list (list N) := [[32]; [9]; [10]; [13]; [11; 12]]%N.
Definition ascii_letters : list (list N) :=
  map (fun c => [c]) (u "abcdefghijklmnopqrstuvwxyzABCDEFGHIJKLMNOPQRSTUVWXYZ_").

(** The order tables, wetext_token_parser.cc:31-50. *)
Definition corders := list (list N * list (list N)).
Definition CPP_ZH_TN_ORDERS : corders :=
  [ (u "date", [u "year"; u "month"; u "day"]);
    (u "fraction", [u "denominator"; u "numerator"]);
    (u "measure", [u "denominator"; u "numerator"; u "value"]);
    (u "money", [u "value"; u "currency"]);
    (u "time", [u "noon"; u "hour"; u "minute"; u "second"]) ].
Definition CPP_JA_TN_ORDERS : corders :=
  [ (u "date", [u "year"; u "month"; u "day"]);
    (u "money", [u "value"; u "currency"]) ].
Definition CPP_EN_TN_ORDERS : corders :=
  [ (u "date", [u "preserve_order"; u "text"; u "day"; u "month"; u "year"]);
    (u "money", [u "integer_part"; u "fractional_part"; u "quantity"; u "currency_maj"]) ].
Definition CPP_ITN_ORDERS : corders :=
  [ (u "date", [u "year"; u "month"; u "day"; u "preserve_order"]);
    (u "fraction", [u "sign"; u "numerator"; u "denominator"]);
    (u "measure", [u "numerator"; u "denominator"; u "value"; u "units"]);
    (u "money", [u "currency"; u "value"; u "decimal"; u "quantity"]);
    (u "time", [u "hour"; u "minute"; u "second"; u "noon"; u "zone"]);
    (u "telephone", [u "country_code"; u "number_part"]);
    (u "electronic", [u "username"; u "domain"; u "protocol"]) ].

(** ParseType, wetext_token_parser.h:65-72, and the constructor, .cc:52-65. *)
Inductive parse_type := ZH_TN | ZH_ITN | EN_TN | EN_ITN | JA_TN | JA_ITN.
Definition orders_of (type : parse_type) : corders :=
  match type with
  | ZH_TN => CPP_ZH_TN_ORDERS
  | ZH_ITN | EN_ITN | JA_ITN => CPP_ITN_ORDERS
  | EN_TN => CPP_EN_TN_ORDERS
  | JA_TN => CPP_JA_TN_ORDERS
  end.

(** Token, wetext_token_parser.h:35-63.  [members] is a hash map: the list of its
    assignments, newest first, of which look-ups see the newest. *)
Record ctoken := CToken {
  c_name : list N; c_order : list (list N); c_members : list (list N * list N) }.
Definition ctoken_append (t : ctoken) (key value : list N) : ctoken :=
  CToken (c_name t) (c_order t ++ [key]) ((key, value) :: c_members t).
Definition ctoken_order (t : ctoken) (orders : corders) : list (list N) :=
  match dict_get (c_name t) orders with
  | Some o =>
      if match dict_get (u "preserve_order") (c_members t) with
         | None => true
         | Some v => negb (text_eqb v (u "true"))
         end
      then o else c_order t
  | None => c_order t
  end.
Definition ctoken_string (t : ctoken) (orders : corders) : list N :=
  (c_name t ++ u " {")
    ++ flat_map (fun key =>
         match dict_get key (c_members t) with
         | None => []
         | Some v => u " " ++ key ++ u ": """ ++ v ++ u """"
         end) (ctoken_order t orders)
    ++ u " }".

(** Parser state: [index_] and [ch_]; [text_] is a parameter. *)
Record cstate := CState { cix : nat; cch : list N }.

(** [text_[i]]. *)
Definition at_index (txt : list (list N)) (i : nat) : cres (list N) :=
  match nth_error txt i with Some c => Ret c | None => Undefined end.

(** Load, wetext_token_parser.cc:67-75, after splitting. *)
Definition cload (txt : list (list N)) : cres cstate :=
  match txt with
  | [] => Throw
  | _ :: _ => c <~ at_index txt 0 ;; Ret (CState 0 c)
  end.

(** Read, wetext_token_parser.cc:77-85. *)
Definition cread (txt : list (list N)) (s : cstate) : cres (bool * cstate) :=
  if cix s <? List.length txt - 1 then
    c <~ at_index txt (cix s + 1) ;; Ret (true, CState (cix s + 1) c)
  else Ret (false, CState (cix s) EOS).

(** ParseWs, wetext_token_parser.cc:87-93. *)
Fixpoint cws_loop (fuel : nat) (txt : list (list N)) (not_eos : bool) (s : cstate) : cres (bool * cstate) :=
  match fuel with
  | O => Stuck
  | S f =>
      if not_eos && text_eqb (cch s) (u " ") then
        '(ne, s') <~ cread txt s ;; cws_loop f txt ne s'
      else Ret (not_eos, s)
  end.
Definition cfuel (txt : list (list N)) : nat := S (S (List.length txt)).
Definition parse_ws_cpp (txt : list (list N)) (s : cstate) : cres (bool * cstate) :=
  cws_loop (cfuel txt) txt (negb (text_eqb (cch s) EOS)) s.

(** ParseChar, wetext_token_parser.cc:95-101. *)
Definition parse_char_cpp (txt : list (list N)) (exp : list N) (s : cstate) : cres (bool * cstate) :=
  if text_eqb (cch s) exp then '(_, s') <~ cread txt s ;; Ret (true, s') else Ret (false, s).

(** ParseChars, wetext_token_parser.cc:103-115. *)
Fixpoint chars_from_cpp (txt : list (list N)) (start : nat) (chars : list (list N)) (s : cstate)
  : cres (bool * cstate) :=
  match chars with
  | [] => Ret (true, s)
  | x :: r =>
      '(b, s') <~ parse_char_cpp txt x s ;;
      if b then chars_from_cpp txt start r s'
      else c <~ at_index txt start ;; Ret (false, CState start c)
  end.
Definition parse_chars_cpp (txt : list (list N)) (exp : list N) (s : cstate) : cres (bool * cstate) :=
  chars <~ split_chars exp ;; chars_from_cpp txt (cix s) chars s.

(** ParseKey, wetext_token_parser.cc:117-133. *)
Fixpoint ckey_loop (fuel : nat) (txt : list (list N)) (key : list N) (s : cstate) : cres (list N * cstate) :=
  match fuel with
  | O => Stuck
  | S f =>
      if text_mem (cch s) ascii_letters then
        '(_, s') <~ cread txt s ;; ckey_loop f txt (key ++ cch s) s'
      else Ret (key, s)
  end.
Definition parse_key_cpp (txt : list (list N)) (s : cstate) : cres (list N * cstate) :=
  if text_eqb (cch s) EOS || text_mem (cch s) UTF8_WHITESPACE then Throw
  else
    '(key, s') <~ ckey_loop (cfuel txt) txt [] s ;;
    match key with [] => Throw | _ :: _ => Ret (key, s') end.

(** ParseValue, wetext_token_parser.cc:135-157. *)
Fixpoint cvalue_loop (fuel : nat) (txt : list (list N)) (value : list N) (s : cstate) : cres (list N * cstate) :=
  match fuel with
  | O => Stuck
  | S f =>
      if text_eqb (cch s) (u """") then Ret (value, s)
      else if text_eqb (cch s) EOS then Throw
      else
        let value1 := value ++ cch s in
        let escape := text_eqb (cch s) (u "\") in
        '(_, s1) <~ cread txt s ;;
        if escape then
          if text_eqb (cch s1) EOS then Throw
          else '(_, s2) <~ cread txt s1 ;; cvalue_loop f txt (value1 ++ cch s1) s2
        else cvalue_loop f txt value1 s1
  end.
Definition parse_value_cpp (txt : list (list N)) (s : cstate) : cres (list N * cstate) :=
  if text_eqb (cch s) EOS then Throw else cvalue_loop (cfuel txt) txt [] s.

(** The inner loop of Parse, wetext_token_parser.cc:168-187. *)
Fixpoint cfields_loop (fuel : nat) (txt : list (list N)) (token : ctoken) (s : cstate)
  : cres (ctoken * cstate) :=
  match fuel with
  | O => Stuck
  | S f =>
      '(ne, s1) <~ parse_ws_cpp txt s ;;
      if ne then
        if text_eqb (cch s1) (u "}") then
          '(_, s2) <~ parse_char_cpp txt (u "}") s1 ;; Ret (token, s2)
        else
          '(key, s2) <~ parse_key_cpp txt s1 ;;
          '(b, s3) <~ parse_chars_cpp txt (u ": """) s2 ;;
          if b then
            '(value, s4) <~ parse_value_cpp txt s3 ;;
            '(q, s5) <~ parse_char_cpp txt (u """") s4 ;;
            if q then cfields_loop f txt (ctoken_append token key value) s5 else Throw
          else Throw
      else Throw
  end.

(** The outer loop of Parse, wetext_token_parser.cc:159-190. *)
Fixpoint ctokens_loop (fuel : nat) (txt : list (list N)) (tokens : list ctoken) (s : cstate)
  : cres (list ctoken) :=
  match fuel with
  | O => Stuck
  | S f =>
      '(ne, s1) <~ parse_ws_cpp txt s ;;
      if ne then
        '(name, s2) <~ parse_key_cpp txt s1 ;;
        '(b, s3) <~ parse_chars_cpp txt (u " { ") s2 ;;
        if b then
          '(token, s4) <~ cfields_loop (cfuel txt) txt (CToken name [] []) s3 ;;
          ctokens_loop f txt (tokens ++ [token]) s4
        else Throw
      else Ret tokens
  end.
Definition parse_cpp (input : list N) : cres (list ctoken) :=
  txt <~ split_chars input ;;
  s <~ cload txt ;;
  ctokens_loop (cfuel txt) txt [] s.

(** Reorder, wetext_token_parser.cc:192-199. *)
Definition reorder_cpp (orders : corders) (input : list N) : cres (list N) :=
  tokens <~ parse_cpp input ;;
  Ret (trim (flat_map (fun token => ctoken_string token orders ++ u " ") tokens)).

(** * wetext_processor.cc *)

(** The parse type chosen from the tagger path, wetext_processor.cc:27-42. *)
Definition has (path p : list N) : bool := match find path p 0 with Some _ => true | None => false end.
Definition parse_type_of (tagger_path : list N) : cres parse_type :=
  if has tagger_path (u "zh_tn_") then Ret ZH_TN
  else if has tagger_path (u "zh_itn_") then Ret ZH_ITN
  else if has tagger_path (u "en_tn_") then Ret EN_TN
  else if has tagger_path (u "en_itn_") then Ret EN_ITN
  else if has tagger_path (u "ja_tn_") then Ret JA_TN
  else if has tagger_path (u "ja_itn_") then Ret JA_ITN
  else Fatal.

(** Verbalize, wetext_processor.cc:71-81; [compose] is composition with the verbaliser
    followed by the shortest path and its output string. *)
Definition verbalize_cpp (type : parse_type) (compose : list N -> cres (list N)) (input : list N)
  : cres (list N) :=
  match input with
  | [] => Ret []
  | _ :: _ =>
      output <~ reorder_cpp (orders_of type) input ;;
      result <~ compose output ;;
      Ret (filter (fun b => negb (b =? 0)%N) result)
  end.
