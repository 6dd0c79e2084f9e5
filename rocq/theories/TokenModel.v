(** Transcription of /repo/tn/token_parser.py (all of it).  Model only. *)
From Coq Require Import List NArith Bool Arith String.
From Verif Require Import Text.
Import ListNotations.
Local Open Scope list_scope.

(** The exceptions: [TokenParseError] (token_parser.py:48-49) with the raise
    site, and two outcomes Python would show as something else: an
    [IndexError] from [self.text[i]], and a loop that does not end within the
    fuel it is given.  The last two are shown unreachable. *)
Inductive parse_fault :=
| EmptyStream            (* :99 *)
| ExpectedChars          (* :136 *)
| KeyAtEnd               (* :140 *)
| KeyAtSpace             (* :142 *)
| InvalidKey             (* :149 *)
| ValueAtEnd             (* :154 *)
| UnterminatedValue      (* :159 *)
| UnterminatedEscape     (* :166 *)
| DuplicateField         (* :63 *)
| UnterminatedToken.     (* :194 *)

Inductive err :=
| TokenParseError (f : parse_fault)
| IndexError
| OutOfFuel.

Inductive res (A : Type) :=
| Ok (a : A)
| Err (e : err).
Arguments Ok {A} a.
Arguments Err {A} e.

Definition bind {A B} (r : res A) (f : A -> res B) : res B :=
  match r with Ok a => f a | Err e => Err e end.
Notation "x <- r ;; k" := (bind r (fun x => k))
  (at level 61, r at next level, right associativity).
Notation "' p <- r ;; k" := (bind r (fun x => let p := x in k))
  (at level 61, p pattern, r at next level, right associativity).

(** The order schemas, token_parser.py:19-38. *)
Definition orders := list (text * list text).
Definition TN_ORDERS : orders :=
  [ (u "date", [u "year"; u "month"; u "day"]);
    (u "fraction", [u "denominator"; u "numerator"]);
    (u "measure", [u "denominator"; u "numerator"; u "value"]);
    (u "money", [u "value"; u "currency"]);
    (u "time", [u "noon"; u "hour"; u "minute"; u "second"]) ].
Definition EN_TN_ORDERS : orders :=
  [ (u "date", [u "preserve_order"; u "text"; u "day"; u "month"; u "year"]);
    (u "money", [u "integer_part"; u "fractional_part"; u "quantity"; u "currency_maj"]) ].
Definition ITN_ORDERS : orders :=
  [ (u "date", [u "year"; u "month"; u "day"; u "preserve_order"]);
    (u "fraction", [u "sign"; u "numerator"; u "denominator"]);
    (u "measure", [u "numerator"; u "denominator"; u "value"; u "units"]);
    (u "money", [u "currency"; u "value"; u "decimal"; u "quantity"]);
    (u "time", [u "hour"; u "minute"; u "second"; u "noon"; u "zone"]);
    (u "telephone", [u "country_code"; u "number_part"]);
    (u "electronic", [u "username"; u "domain"; u "protocol"]) ].

(** [str.replace] for a one-character pattern. *)
Definition replace_char (c : N) (by_ : text) (t : text) : text :=
  flat_map (fun x => if (x =? c)%N then by_ else [x]) t.

(** escape_value, token_parser.py:43-45: two successive replacements. *)
Definition escape_value (value : text) : text :=
  replace_char QUOTE [BSL; QUOTE] (replace_char BSL [BSL; BSL] value).

(** Token, token_parser.py:52-59.  [end] is set when the token closes, so the
    record is only built complete. *)
Record token := Token {
  tk_name : text;
  tk_start : nat;
  tk_end : nat;
  tk_order : list text;
  tk_members : list (text * text) }.

(** Token.append, token_parser.py:61-65, on the two containers it updates. *)
Definition token_append (order : list text) (members : list (text * text))
  (key value : text) : res (list text * list (text * text)) :=
  match dict_get key members with
  | Some _ => Err (TokenParseError DuplicateField)
  | None => Ok (order ++ [key], members ++ [(key, value)])
  end.

(** Token.string, token_parser.py:67-80. *)
Definition effective_order (t : token) (os : orders) : list text :=
  match dict_get (tk_name t) os with
  | None => tk_order t
  | Some canonical_order =>
      let reorder :=
        match dict_get (u "preserve_order") (tk_members t) with
        | None => true
        | Some v => negb (text_eqb v (u "true"))
        end in
      if reorder then
        canonical_order
          ++ filter (fun key => negb (text_mem key canonical_order)) (tk_order t)
      else tk_order t
  end.

Definition format_field (key value : text) : text :=
  [SP] ++ key ++ [COLON; SP; QUOTE] ++ escape_value value ++ [QUOTE].

Definition token_string (t : token) (os : orders) : text :=
  tk_name t ++ [SP; LBRACE]
    ++ flat_map (fun key =>
         match dict_get key (tk_members t) with
         | None => []
         | Some v => format_field key v
         end) (effective_order t os)
    ++ [SP; RBRACE].

(** TokenParser.__init__, token_parser.py:85-95. *)
Inductive ordertype := OMapping (o : orders) | OName (s : text).
Definition parser_orders (o : ordertype) : option orders :=
  match o with
  | OMapping m => Some m
  | OName s =>
      if text_eqb s (u "tn") then Some TN_ORDERS
      else if text_eqb s (u "itn") then Some ITN_ORDERS
      else if text_eqb s (u "en_tn") then Some EN_TN_ORDERS
      else None                                  (* NotImplementedError *)
  end.

(** Parser state: [self.index] and [self.char]; [None] is the EOS sentinel
    (a five-character string that no single character equals). *)
Record pstate := PState { ix : nat; ch : option N }.

(** load, token_parser.py:97-103. *)
Definition load (txt : text) : res pstate :=
  match txt with
  | [] => Err (TokenParseError EmptyStream)
  | c :: _ => Ok (PState 0 (Some c))
  end.

(** read, token_parser.py:105-111.  [text[index]] can raise [IndexError]. *)
Definition read (txt : text) (s : pstate) : res (bool * pstate) :=
  if ix s <? List.length txt - 1 then
    match nth_error txt (S (ix s)) with
    | Some c => Ok (true, PState (S (ix s)) (Some c))
    | None => Err IndexError
    end
  else Ok (false, PState (ix s) None).

Definition char_is (s : pstate) (c : N) : bool :=
  match ch s with Some x => (x =? c)%N | None => false end.
Definition not_eos (s : pstate) : bool :=
  match ch s with Some _ => true | None => false end.

(** parse_ws, token_parser.py:113-117. *)
Fixpoint parse_ws_loop (fuel : nat) (txt : text) (ne : bool) (s : pstate) : res (bool * pstate) :=
  match fuel with
  | O => Err OutOfFuel
  | S f =>
      if ne && char_is s SP then
        '(ne', s') <- read txt s ;; parse_ws_loop f txt ne' s'
      else Ok (ne, s)
  end.
Definition loop_fuel (txt : text) : nat := S (S (List.length txt)).
Definition parse_ws (txt : text) (s : pstate) : res (bool * pstate) :=
  parse_ws_loop (loop_fuel txt) txt (not_eos s) s.

(** parse_char, token_parser.py:119-123. *)
Definition parse_char (txt : text) (exp : N) (s : pstate) : res (bool * pstate) :=
  if char_is s exp then
    '(_, s') <- read txt s ;; Ok (true, s')
  else Ok (false, s).

(** parse_chars, token_parser.py:125-132: on a mismatch the index and the
    current character are reset to where the match began. *)
Fixpoint parse_chars_from (txt : text) (start : nat) (exp : list N) (s : pstate) : res (bool * pstate) :=
  match exp with
  | [] => Ok (true, s)
  | x :: r =>
      '(b, s') <- parse_char txt x s ;;
      if b then parse_chars_from txt start r s'
      else match nth_error txt start with
           | Some c => Ok (false, PState start (Some c))
           | None => Err IndexError
           end
  end.
Definition parse_chars (txt : text) (exp : list N) (s : pstate) : res (bool * pstate) :=
  parse_chars_from txt (ix s) exp s.

(** expect_chars, token_parser.py:134-136. *)
Definition expect_chars (txt : text) (exp : list N) (s : pstate) : res pstate :=
  '(b, s') <- parse_chars txt exp s ;;
  if b then Ok s' else Err (TokenParseError ExpectedChars).

(** [string.whitespace] and [string.ascii_letters + "_"]. *)
Definition py_whitespace (c : N) : bool :=
  existsb (N.eqb c) [32; 9; 10; 13; 11; 12]%N.
Definition key_char (c : N) : bool :=
  ((65 <=? c) && (c <=? 90) || (97 <=? c) && (c <=? 122) || (c =? 95))%N%bool.

(** parse_key, token_parser.py:138-150. *)
Fixpoint key_loop (fuel : nat) (txt : text) (key : text) (s : pstate) : res (text * pstate) :=
  match fuel with
  | O => Err OutOfFuel
  | S f =>
      match ch s with
      | Some c =>
          if key_char c then
            '(_, s') <- read txt s ;; key_loop f txt (key ++ [c]) s'
          else Ok (key, s)
      | None => Ok (key, s)
      end
  end.
Definition parse_key (txt : text) (s : pstate) : res (text * pstate) :=
  match ch s with
  | None => Err (TokenParseError KeyAtEnd)
  | Some c =>
      if py_whitespace c then Err (TokenParseError KeyAtSpace)
      else
        '(key, s') <- key_loop (loop_fuel txt) txt [] s ;;
        match key with
        | [] => Err (TokenParseError InvalidKey)
        | _ :: _ => Ok (key, s')
        end
  end.

(** parse_value, token_parser.py:152-172. *)
Fixpoint value_loop (fuel : nat) (txt : text) (value : text) (s : pstate) : res (text * pstate) :=
  match fuel with
  | O => Err OutOfFuel
  | S f =>
      match ch s with
      | None => Err (TokenParseError UnterminatedValue)
      | Some c =>
          if (c =? QUOTE)%N then Ok (value, s)
          else
            let escaped := (c =? BSL)%N in
            let value1 := if escaped then value else value ++ [c] in
            '(_, s1) <- read txt s ;;
            if escaped then
              match ch s1 with
              | None => Err (TokenParseError UnterminatedEscape)
              | Some d =>
                  let value2 :=
                    if ((d =? QUOTE) || (d =? BSL))%N%bool then value1 ++ [d]
                    else value1 ++ [BSL; d] in
                  '(_, s2) <- read txt s1 ;; value_loop f txt value2 s2
              end
            else value_loop f txt value1 s1
      end
  end.
Definition parse_value (txt : text) (s : pstate) : res (text * pstate) :=
  match ch s with
  | None => Err (TokenParseError ValueAtEnd)
  | Some _ => value_loop (loop_fuel txt) txt [] s
  end.

(** The inner loop of parse, token_parser.py:182-194. *)
Fixpoint fields_loop (fuel : nat) (txt : text) (order : list text)
  (members : list (text * text)) (s : pstate)
  : res (list text * list (text * text) * pstate) :=
  match fuel with
  | O => Err OutOfFuel
  | S f =>
      '(ne, s1) <- parse_ws txt s ;;
      if ne then
        if char_is s1 RBRACE then
          '(_, s2) <- parse_char txt RBRACE s1 ;; Ok (order, members, s2)
        else
          '(key, s2) <- parse_key txt s1 ;;
          s3 <- expect_chars txt [COLON; SP; QUOTE] s2 ;;
          '(value, s4) <- parse_value txt s3 ;;
          s5 <- expect_chars txt [QUOTE] s4 ;;
          '(order', members') <- token_append order members key value ;;
          fields_loop f txt order' members' s5
      else Err (TokenParseError UnterminatedToken)
  end.

(** The outer loop of parse, token_parser.py:176-196. *)
Fixpoint tokens_loop (fuel : nat) (txt : text) (toks : list token) (s : pstate) : res (list token) :=
  match fuel with
  | O => Err OutOfFuel
  | S f =>
      '(ne, s1) <- parse_ws txt s ;;
      if ne then
        let token_start := ix s1 in
        '(name, s2) <- parse_key txt s1 ;;
        s3 <- expect_chars txt [SP; LBRACE; SP] s2 ;;
        '(order, members, s4) <- fields_loop (loop_fuel txt) txt [] [] s3 ;;
        let token_end := match ch s4 with None => List.length txt | Some _ => ix s4 end in
        tokens_loop f txt (toks ++ [Token name token_start token_end order members]) s4
      else Ok toks
  end.

(** parse, token_parser.py:174-196; the result is [self.tokens]. *)
Definition parse (txt : text) : res (list token) :=
  s <- load txt ;; tokens_loop (loop_fuel txt) txt [] s.

(** reorder_with_spans, token_parser.py:202-217. *)
Fixpoint serialize_loop (os : orders) (toks : list token) (serialized : list text)
  (spans : list (nat * nat)) (offset : nat) : list text * list (nat * nat) :=
  match toks with
  | [] => (serialized, spans)
  | t :: r =>
      let value := token_string t os in
      let offset1 := match serialized with [] => offset | _ :: _ => S offset end in
      let start := offset1 in
      let offset2 := offset1 + List.length value in
      serialize_loop os r (serialized ++ [value]) (spans ++ [(start, offset2)]) offset2
  end.
Definition reorder_with_spans (os : orders) (txt : text) : res (text * list (nat * nat)) :=
  toks <- parse txt ;;
  let '(serialized, spans) := serialize_loop os toks [] [] 0 in
  Ok (join [SP] serialized, spans).

(** reorder, token_parser.py:198-200. *)
Definition reorder (os : orders) (txt : text) : res text :=
  '(output, _) <- reorder_with_spans os txt ;; Ok output.
