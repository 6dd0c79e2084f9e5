(** Texts from the repository's own tests, run through the models of the grammars and
    of the search: the theorems of PropsShape.v and PropsTotal.v are about graphs that do
    this.  (The engine is [graph_engine]; the two graphs and the order tables are those of
    the grammar.) *)
From Coq Require Import List NArith ZArith Bool String.
From Verif Require Import Text TextFacts TokenModel PipelineModel NbestModel NbestWitness.
From Verif Require Import Fst GrammarModel FstEval GrammarEngine.
From Verif Require ZhTnModel ZhItnModel JaTnModel JaItnModel EnItnModel.
Import ListNotations.
Local Open Scope list_scope.

Definition run_grammar (os : orders) (tagger verbalizer : option fst) (x : text) (nbest : Z) : pres (answer text) :=
  match tagger, verbalizer with
  | Some t, Some v => normalize 100 (graph_engine os t v engine_w) x (PyInt nbest)
  | _, _ => PErr PNoPath
  end.
(** The defaults of the constructors. *)
Definition zh_tn (x : string) : pres (answer text) :=
  let o := ZhTnModel.Options true true true false true false in
  run_grammar zh_tn_token_orders (ZhTnModel.tagger o) (ZhTnModel.verbalizer o) (u x) 1.
Definition zh_itn (x : string) : pres (answer text) :=
  let o := ZhItnModel.Options true true false false in
  run_grammar zh_itn_token_orders (ZhItnModel.tagger o) (ZhItnModel.verbalizer o) (u x) 1.
Definition ja_tn (x : string) : pres (answer text) :=
  let o := JaTnModel.Options false false false true false in
  run_grammar ja_tn_token_orders (JaTnModel.tagger o) (JaTnModel.verbalizer o) (u x) 1.
Definition ja_itn (x : string) : pres (answer text) :=
  let o := JaItnModel.Options false true false false in
  run_grammar ja_itn_token_orders (JaItnModel.tagger o) (JaItnModel.verbalizer o) (u x) 1.
Definition one (x : string) : pres (answer text) := POk (One (u x)).
Example zh_tn_witness : zh_tn "1/2" = one "二分之一".
Proof. vm_compute; reflexivity. Qed.
Example zh_tn_witness2 : zh_tn "2年后" = one "两年后".
Proof. vm_compute; reflexivity. Qed.
Example zh_itn_witness : zh_itn "幺幺零" = one "110".
Proof. vm_compute; reflexivity. Qed.
Example ja_tn_witness : ja_tn "￥22" = one "二十二円".
Proof. vm_compute; reflexivity. Qed.
Example ja_itn_witness : ja_itn "十日" = one "10日".
Proof. vm_compute; reflexivity. Qed.
Definition en_itn (x : string) : pres (answer text) :=
  run_grammar en_itn_token_orders EnItnModel.tagger EnItnModel.verbalizer (u x) 1.
Example en_itn_witness : en_itn "two pm" = one "02:00 p.m.".
Proof. vm_compute; reflexivity. Qed.
Example en_itn_witness2 : en_itn "tenth" = one "10th".
Proof. vm_compute; reflexivity. Qed.
