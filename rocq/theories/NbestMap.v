(** normalize_with_mapping, and verbalize after tag (C16, C17, C23). *)
From Coq Require Import List NArith ZArith Bool Arith Lia Sorted.
From Verif Require Import Text TextFacts TokenModel TokenSpec TokenProofs TokenProofs2 TokenProofs3.
From Verif Require Import AlignModel AlignSpec AlignBytes AlignProofs.
From Verif Require Import NbestModel NbestSpec NbestStream NbestSearch NbestProofs.
Import ListNotations.
Local Open Scope list_scope.

Lemma Forall2_length : forall {A B} {R : A -> B -> Prop} {l l'}, Forall2 R l l' -> length l = length l'.
Proof. intros A B R l l' H; induction H; cbn; congruence. Qed.

(** ** Spans coming from the parser *)
Lemma tiles_spans : forall a spans e, tiles a spans e -> nonempty_spans spans -> increasing_from a spans e /\ a <= e.
Proof.
  intros a spans e H. induction H as [a b|a b r e H IH]; cbn [nonempty_spans increasing_from]; intros N.
  - lia.
  - destruct N as (L & N). destruct (IH N) as (I & Le). split; [|lia].
    split; [lia|]. split; [lia|]. clear - I. destruct r as [|[c d] r]; cbn [increasing_from] in *; [tauto|]. lia || (split; [lia|tauto]).
Qed.
Lemma token_string_nonempty : forall t os, token_string t os <> [].
Proof.
  intros t os E. unfold token_string in E. apply (f_equal (@length N)) in E.
  repeat (rewrite app_length in E; cbn in E). lia.
Qed.
Lemma serialized_spans_ok : forall os t out spans, reorder_with_spans os t = Ok (out, spans) ->
  nonempty_spans spans /\ increasing_from 0 spans (length out).
Proof.
  intros os t out spans H. destruct (reorder_spans _ _ _ _ H) as (toks & _ & _ & _ & F & D).
  assert (N : nonempty_spans spans).
  { clear - F. induction F as [|tok [a b] toks spans E F IH]; cbn [nonempty_spans]; [exact I|]. split; [|exact IH].
    destruct (le_lt_dec b a) as [L|L]; [|exact L]. exfalso. apply (token_string_nonempty tok os). rewrite <- E.
    cbn [fst snd]. unfold slice. replace (b - a) with 0 by lia. reflexivity. }
  split; [exact N|]. destruct D as [(_ & -> & ->)|D]; [exact I|]. apply tiles_spans; assumption.
Qed.
Lemma serialized_spans_count : forall os t out spans toks, reorder_with_spans os t = Ok (out, spans) -> parse t = Ok toks ->
  length spans = length toks.
Proof.
  intros os t out spans toks H P. destruct (reorder_spans _ _ _ _ H) as (toks' & P' & _ & _ & F & _).
  rewrite P in P'. injection P' as <-. symmetry. exact (Forall2_length F).
Qed.
Lemma source_spans_ok : forall t toks, parse t = Ok toks ->
  increasing_from 0 (map (fun k => (tk_start k, tk_end k)) toks) (length t).
Proof.
  intros t toks P. destruct (parse_source_spans _ _ P) as (F & Adj & _).
  assert (G : forall l o, Forall (fun tok => tk_start tok < tk_end tok <= length t) l ->
     (forall i a b, nth_error l i = Some a -> nth_error l (S i) = Some b -> tk_end a <= tk_start b) ->
     (forall a, nth_error l 0 = Some a -> o <= tk_start a) ->
     increasing_from o (map (fun k => (tk_start k, tk_end k)) l) (length t)).
  { induction l as [|a l IH]; intros o Fl Al H0; cbn [map increasing_from]; [exact I|].
    inversion Fl as [|? ? La Fl']; subst. specialize (H0 a eq_refl).
    split; [exact H0|]. split; [lia|]. apply IH; [exact Fl'| |].
    - intros i x y Hx Hy. exact (Al (S i) x y Hx Hy).
    - intros x Hx. exact (Al 0 a x eq_refl Hx). }
  apply G; [|exact Adj|intros; lia]. eapply Forall_impl; [|exact F]. intros k (A & _). exact A.
Qed.
Lemma reorder_inv : forall os t r, reorder os t = Ok r -> exists spans toks, reorder_with_spans os t = Ok (r, spans) /\ parse t = Ok toks.
Proof.
  intros os t r H. unfold reorder in H. destruct (reorder_with_spans os t) as [[out spans]|e] eqn:E; cbn [bind] in H; [|discriminate].
  injection H as ->. destruct (reorder_spans _ _ _ _ E) as (toks & P & _). exists spans, toks. split; [reflexivity|exact P].
Qed.

(** ** The rows of the mapping table *)
Lemma increasing_weaken : forall l o o' n, increasing_from o l n -> o' <= o -> increasing_from o' l n.
Proof. intros [|[a b] l] o o' n; cbn [increasing_from]; [tauto|]. intros (A & B) L. split; [lia|exact B]. Qed.

Lemma mapping_loop_ok : forall input output b toks ins outs oi oo,
  length ins = length toks -> length outs = length toks ->
  increasing_from oi ins (length input) -> nonempty_spans ins -> increasing_from oo outs (length output) ->
  let ms := mapping_loop input output b (combine toks (combine ins outs)) in
  Forall (mapping_ok input output) ms /\
  increasing_from oi (map in_span ms) (length input) /\ increasing_from oo (map out_span ms) (length output).
Proof.
  intros input output b toks; induction toks as [|t toks IH]; intros ins outs oi oo Li Lo Ii Ni Io.
  - cbn. repeat split; constructor.
  - destruct ins as [|[a e] ins]; [discriminate|]. destruct outs as [|[c d] outs]; [discriminate|].
    cbn [increasing_from nonempty_spans length] in *. destruct Ii as (A1 & A2 & A3). destruct Io as (B1 & B2 & B3). destruct Ni as (N1 & N2).
    specialize (IH ins outs e d ltac:(lia) ltac:(lia) A3 N2 B3). cbn zeta in IH. destruct IH as (F & I1 & I2).
    cbn [combine mapping_loop]. cbv zeta.
    set (k := if text_eqb (slice input a e) (slice output c d) then Equal
              else match slice output c d with [] => Delete | _ :: _ => Replace end).
    destruct (b || negb match k with Equal => true | _ => false end).
    + assert (Mo : mapping_ok input output (Mapping k (tk_name t) a e c d (slice input a e) (slice output c d))).
      { unfold mapping_ok; cbn [m_kind m_in_start m_in_end m_out_start m_out_end m_in_text m_out_text].
        assert (Ns : slice input a e <> []).
        { intros E. apply (f_equal (@length N)) in E. unfold slice in E. rewrite firstn_length, skipn_length in E. cbn in E. lia. }
        split; [lia|]. split; [lia|]. split; [lia|]. split; [lia|]. split; [reflexivity|]. split; [reflexivity|].
        subst k. destruct (text_eqb_spec (slice input a e) (slice output c d)) as [E|E].
        - rewrite <- E. split; [tauto|]. split; [split; [discriminate|contradiction]|]. split; [discriminate|tauto].
        - destruct (slice output c d) as [|y l] eqn:Es.
          + split; [split; [discriminate|contradiction]|]. split; [tauto|]. split; [discriminate|]. intros (_ & C); congruence.
          + split; [split; [discriminate|contradiction]|]. split; [split; discriminate|]. split; [|tauto]. intros _; split; [exact E|discriminate]. }
      split; [constructor; assumption|]. cbn [map in_span out_span increasing_from m_in_start m_in_end m_out_start m_out_end].
      split; (split; [assumption|]; split; assumption).
    + split; [exact F|]. split; eapply increasing_weaken; try eassumption; lia.
Qed.
Lemma mapping_loop_filter : forall input output rows,
  mapping_loop input output false rows = filter not_equal (mapping_loop input output true rows).
Proof.
  intros input output rows; induction rows as [|[t [[a e] [c d]]] rows IH]; [reflexivity|].
  cbn [mapping_loop]. cbv zeta. cbn [orb filter]. rewrite IH. unfold not_equal at 2; cbn [m_kind].
  destruct (if text_eqb _ _ then _ else _); reflexivity.
Qed.
Lemma mapping_loop_types : forall input output toks ins outs, length ins = length toks -> length outs = length toks ->
  map m_type (mapping_loop input output true (combine toks (combine ins outs))) = map tk_name toks /\
  map in_span (mapping_loop input output true (combine toks (combine ins outs))) = ins /\
  map out_span (mapping_loop input output true (combine toks (combine ins outs))) = outs.
Proof.
  intros input output toks; induction toks as [|t toks IH]; intros [|[a e] ins] [|[c d] outs] L1 L2; try discriminate; [repeat split; reflexivity|].
  cbn [combine mapping_loop]. cbv zeta. cbn [orb map m_type in_span out_span m_in_start m_in_end m_out_start m_out_end].
  destruct (IH ins outs ltac:(cbn in *; lia) ltac:(cbn in *; lia)) as (-> & -> & ->). repeat split; reflexivity.
Qed.

(** ** One candidate *)
Section Map.
Variable en : engine.
Variables T V : text -> wset.
Hypothesis O : search_oracle en T V.
Hypothesis PO : path_oracle en T V.

Lemma verbalize_tagged_ok : forall t r o w, reorder (engine_orders en) t = Ok r -> V r o w ->
  exists spans toks arcs, reorder_with_spans (engine_orders en) t = Ok (r, spans) /\ parse t = Ok toks /\
    spells r o arcs /\ length spans = length toks /\
    match verbalize_tagged en t true (Some o) with
    | POk (out, toks', outs) => out = o /\ toks' = toks /\ length outs = length toks /\ increasing_from 0 outs (length o) /\
        each_span (output_span_ok r o arcs spans) spans outs
    | PErr e => e = PAlign (AlignmentError SplitCodePoint)
    end.
Proof.
  intros t r o w Hr Ho. destruct (reorder_inv _ _ _ Hr) as (spans & toks & Es & Ep).
  destruct (proj2 PO r o w Ho) as (arcs & Hs & Hl & Hsp & Hv).
  exists spans, toks, arcs. split; [exact Es|]. split; [exact Ep|]. split; [exact Hsp|].
  assert (Lc : length spans = length toks) by (eapply serialized_spans_count; eassumption). split; [exact Lc|].
  destruct (serialized_spans_ok _ _ _ _ Es) as (N & I).
  unfold verbalize_tagged. rewrite Ep. cbn [of_parse pbind]. rewrite Es. cbn [of_parse pbind]. rewrite Hl. cbn [of_fuel pbind].
  rewrite Hv. pose proof (transduce_exact r o (verb_machine en r (Some o)) arcs spans Hs Hsp I N) as X.
  destruct (transduce_with_spans r spans (verb_machine en r (Some o)) (AOk arcs) o) as [[out outs]|e] eqn:Et; cbn [of_align pbind].
  - destruct X as (-> & X). split; [reflexivity|]. split; [reflexivity|].
    destruct (transduce_shape _ _ _ _ _ _ _ Hsp Et) as (_ & L & Inc). split; [lia|]. split; [exact Inc|exact X].
  - destruct e as [[]| | |]; try (destruct X; fail); reflexivity.
Qed.

Lemma candidate_mapping_ok : forall x c tw r vw b, T x (c_tagged c) tw -> reorder (engine_orders en) (c_tagged c) = Ok r ->
  V r (c_output c) vw ->
  exists toks, parse (c_tagged c) = Ok toks /\
  match candidate_mapping en x c b with
  | POk res => r_input res = x /\ r_output res = c_output c /\
      exists ins outs, length ins = length toks /\ length outs = length toks /\
        increasing_from 0 ins (length x) /\ nonempty_spans ins /\ increasing_from 0 outs (length (c_output c)) /\
        r_mappings res = mapping_loop x (c_output c) b (combine toks (combine ins outs))
  | PErr e => e = PAlign (AlignmentError SplitCodePoint) \/ e = PAlign (AlignmentError NothingConsumed)
  end.
Proof.
  intros x c tw r vw b Ht Hr Hv.
  destruct (verbalize_tagged_ok _ _ _ _ Hr Hv) as (spans & toks & arcs & Es & Ep & Hsp & Lc & X).
  exists toks. split; [exact Ep|]. unfold candidate_mapping.
  destruct (verbalize_tagged en (c_tagged c) true (Some (c_output c))) as [[[out toks'] outs]|e]; cbn [pbind]; [|left; exact X].
  destruct X as (-> & -> & Lo & Io & _).
  destruct (proj1 PO x (c_tagged c) tw Ht) as (arcs2 & _ & Hl & Hsp2). rewrite Hl. cbn [of_fuel pbind].
  pose proof (source_spans_ok _ _ Ep) as I2.
  pose proof (trace_exact x (c_tagged c) arcs2 _ Hsp2 I2) as Y.
  destruct (trace_input_spans x (c_tagged c) (AOk arcs2) _) as [ins|e] eqn:Et; cbn [of_align pbind].
  - destruct (trace_shape _ _ _ _ _ Hsp2 Et) as (Li & Ni & Ii). rewrite map_length in Li.
    split; [reflexivity|]. split; [reflexivity|]. exists ins, outs. repeat split; assumption.
  - destruct e as [[]| | |]; try (destruct Y; fail); [right|left]; reflexivity.
Qed.

Lemma candidate_real : forall fuel x n cs c, 1 <= n -> normalization_candidates fuel en x n = POk cs -> In c cs ->
  exists tw r vw, T x (c_tagged c) tw /\ reorder (engine_orders en) (c_tagged c) = Ok r /\ V r (c_output c) vw.
Proof.
  intros fuel x n cs c L E I. destruct (candidates_spec en T V O fuel x n cs L E) as (_ & F).
  pose proof (ranked_joint en T V O x _ _ _ _ _ (proj1 F c I)) as (r & tw & vw & b & A & B & C & _).
  exists tw, r, vw. repeat split; assumption.
Qed.

Lemma candidate_faithful : forall x c tw r vw res, T x (c_tagged c) tw -> reorder (engine_orders en) (c_tagged c) = Ok r ->
  V r (c_output c) vw -> candidate_mapping en x c true = POk res -> faithful en T V x res.
Proof.
  intros x c tw r vw res Ht Hr Hv E.
  destruct (verbalize_tagged_ok _ _ _ _ Hr Hv) as (spans & toks & arcs & Es & Ep & Hsp & Lc & X).
  unfold candidate_mapping in E.
  destruct (verbalize_tagged en (c_tagged c) true (Some (c_output c))) as [[[out toks'] outs]|e]; cbn [pbind] in E; [|discriminate].
  destruct X as (-> & -> & Lo & Io & Eo).
  destruct (proj1 PO x (c_tagged c) tw Ht) as (arcs2 & _ & Hl & Hsp2). rewrite Hl in E. cbn [of_fuel pbind] in E.
  pose proof (source_spans_ok _ _ Ep) as I2.
  pose proof (trace_exact x (c_tagged c) arcs2 _ Hsp2 I2) as Y.
  destruct (trace_input_spans x (c_tagged c) (AOk arcs2) _) as [ins|e] eqn:Et; cbn [of_align pbind] in E; [|discriminate].
  injection E as <-. destruct (trace_shape _ _ _ _ _ Hsp2 Et) as (Li & Ni & Ii). rewrite map_length in Li.
  destruct (mapping_loop_types x (c_output c) toks ins outs Li Lo) as (E1 & E2 & E3).
  exists (c_tagged c), tw, r, vw, toks, spans, arcs2, arcs. cbn [r_output r_mappings]. rewrite E1, E2, E3.
  repeat (split; [assumption || reflexivity|]). assumption.
Qed.

Lemma map_pres_ok : forall {A B} (f : A -> pres B) l l', map_pres f l = POk l' -> Forall2 (fun a b => f a = POk b) l l'.
Proof.
  intros A B f l; induction l as [|a l IH]; intros l'; cbn [map_pres]; [intros E; injection E as <-; constructor|].
  destruct (f a) as [b|e] eqn:Ea; cbn [pbind]; [|discriminate].
  destruct (map_pres f l) as [bs|e]; cbn [pbind]; [|discriminate]. intros E; injection E as <-. constructor; [exact Ea|apply IH; reflexivity].
Qed.
Lemma map_pres_err : forall {A B} (f : A -> pres B) l e, map_pres f l = PErr e -> exists a, In a l /\ f a = PErr e.
Proof.
  intros A B f l e; induction l as [|a l IH]; cbn [map_pres]; [discriminate|].
  destruct (f a) as [b|e'] eqn:Ea; cbn [pbind].
  - destruct (map_pres f l) as [bs|e'']; cbn [pbind]; [discriminate|]. intros E; injection E as ->.
    destruct (IH eq_refl) as (a' & I & E). exists a'. split; [right; exact I|exact E].
  - intros E; injection E as ->. exists a. split; [left; reflexivity|exact Ea].
Qed.

Lemma with_mapping_inv : forall fuel x v b ans, x <> [] -> normalize_with_mapping fuel en x v b = POk ans ->
  exists z cs rs, v = PyInt z /\ (1 <= z)%Z /\ normalization_candidates fuel en x (Z.to_nat z) = POk cs /\
    Forall2 (fun c res => candidate_mapping en x c b = POk res) cs rs /\ ans = answer_of (Z.to_nat z) rs (Result [] [] []) /\
    length cs <= Z.to_nat z /\ listed ans = rs.
Proof.
  intros fuel x v b ans Nx E. unfold normalize_with_mapping in E.
  destruct (validate_nbest v) as [n|e] eqn:Ev; cbn [pbind] in E; [|discriminate].
  apply validate_ok in Ev. destruct Ev as (z & -> & L & ->).
  destruct x as [|c x]; [congruence|].
  destruct (normalization_candidates _ _ _ _) as [cs|e] eqn:Ec; cbn [pbind] in E; [|discriminate].
  destruct (map_pres _ cs) as [rs|e] eqn:Em; cbn [pbind] in E; [|discriminate].
  injection E as <-. apply map_pres_ok in Em.
  destruct (candidates_spec en T V O fuel (c :: x) (Z.to_nat z) cs ltac:(lia) Ec) as (N & F).
  assert (Lc : length cs <= Z.to_nat z) by apply F.
  exists z, cs, rs. repeat split; try assumption.
  pose proof (Forall2_length Em) as Le. apply listed_answer; [lia|lia|]. destruct rs; [|discriminate].
  destruct cs; [congruence|discriminate].
Qed.

(** C16 *)
Theorem mapping_consistent : forall fuel x v b ans, x <> [] -> normalize_with_mapping fuel en x v b = POk ans ->
  Forall (fun res => r_input res = x /\
     Forall (mapping_ok x (r_output res)) (r_mappings res) /\
     increasing_from 0 (map in_span (r_mappings res)) (length x) /\
     increasing_from 0 (map out_span (r_mappings res)) (length (r_output res))) (listed ans).
Proof.
  intros fuel x v b ans Nx E. destruct (with_mapping_inv _ _ _ _ _ Nx E) as (z & cs & rs & -> & L & Ec & F & _ & _ & ->).
  assert (Fc : Forall (fun c => exists tw r vw, T x (c_tagged c) tw /\ reorder (engine_orders en) (c_tagged c) = Ok r /\ V r (c_output c) vw) cs).
  { apply Forall_forall. intros c I. eapply candidate_real; [|exact Ec|exact I]. lia. }
  clear - F Fc PO. induction F as [|c res cs rs Ecm F IH]; [constructor|]. inversion Fc as [|? ? (tw & r & vw & A & B & C) Fc']; subst.
  constructor; [|apply IH; assumption].
  destruct (candidate_mapping_ok x c tw r vw b A B C) as (toks & Ep & X). rewrite Ecm in X.
  destruct X as (E1 & E2 & ins & outs & Li & Lo & Ii & Ni & Io & Em). split; [exact E1|]. rewrite E2, Em.
  exact (mapping_loop_ok x (c_output c) b toks ins outs 0 0 Li Lo Ii Ni Io).
Qed.

Theorem mapping_faithful : forall fuel x v ans, x <> [] -> normalize_with_mapping fuel en x v true = POk ans ->
  Forall (faithful en T V x) (listed ans).
Proof.
  intros fuel x v ans Nx E. destruct (with_mapping_inv _ _ _ _ _ Nx E) as (z & cs & rs & -> & L & Ec & F & _ & Lc & ->).
  assert (Fc : Forall (fun c => exists tw r vw, T x (c_tagged c) tw /\ reorder (engine_orders en) (c_tagged c) = Ok r /\ V r (c_output c) vw) cs).
  { apply Forall_forall. intros c I. eapply candidate_real; [|exact Ec|exact I]. lia. }
  clear - F Fc PO. induction F as [|c res cs rs Ecm F IH]; [constructor|]. inversion Fc as [|? ? (tw & r & vw & A & B & C) Fc']; subst.
  constructor; [|apply IH; assumption]. eapply candidate_faithful; eassumption.
Qed.
Theorem mapping_complete : forall fuel x v ans, x <> [] -> normalize_with_mapping fuel en x v true = POk ans ->
  exists ans', normalize_with_mapping fuel en x v false = POk ans' /\
    listed ans' = map (fun res => Result (r_input res) (r_output res) (filter not_equal (r_mappings res))) (listed ans).
Proof.
  intros fuel x v ans Nx E. destruct (with_mapping_inv _ _ _ _ _ Nx E) as (z & cs & rs & -> & L & Ec & F & _ & Lc & ->).
  assert (Em : map_pres (fun c => candidate_mapping en x c false) cs
               = POk (map (fun res => Result (r_input res) (r_output res) (filter not_equal (r_mappings res))) rs)).
    { clear - F. induction F as [|c res cs rs Ecm F IH]; [reflexivity|]. cbn [map_pres map].
      replace (candidate_mapping en x c false) with (POk (Result (r_input res) (r_output res) (filter not_equal (r_mappings res)))).
      { cbn [pbind]. rewrite IH. reflexivity. }
      unfold candidate_mapping in *.
      destruct (verbalize_tagged _ _ _ _) as [[[out toks] outs]|e]; cbn [pbind] in *; [|discriminate].
      destruct (of_fuel _) as [arcs|]; cbn [pbind] in *; [|discriminate].
      destruct (of_align _) as [ins|]; cbn [pbind] in *; [|discriminate].
      injection Ecm as <-. cbn [r_input r_output r_mappings]. rewrite mapping_loop_filter. reflexivity. }
    unfold normalize_with_mapping. rewrite (proj2 (validate_ok (PyInt z) (Z.to_nat z))) by (exists z; repeat split; lia).
    cbn [pbind]. destruct x as [|d x]; [congruence|]. rewrite Ec. cbn [pbind]. rewrite Em. cbn [pbind].
    eexists; split; [reflexivity|]. pose proof (Forall2_length F) as Le. pose proof (candidates_nonempty _ _ _ _ _ Ec) as Nc.
    apply listed_answer; [lia|rewrite map_length; lia|]. destruct rs; [|discriminate]. destruct cs; [congruence|discriminate].
Qed.

(** C17 *)
Theorem mapping_agrees : forall fuel x v b ans, normalize_with_mapping fuel en x v b = POk ans ->
  exists ans', normalize fuel en x v = POk ans' /\
    match ans, ans' with
    | One res, One o => r_output res = o
    | Many rs, Many os => map r_output rs = os
    | _, _ => False
    end.
Proof.
  intros fuel x v b ans E. destruct x as [|d x].
  - unfold normalize_with_mapping in E. unfold normalize. destruct (validate_nbest v) as [n|e]; cbn [pbind] in *; [|discriminate].
    injection E as <-. eexists; split; [reflexivity|]. destruct (n =? 1); reflexivity.
  - destruct (with_mapping_inv fuel (d :: x) v b ans ltac:(discriminate) E) as (z & cs & rs & -> & L & Ec & F & -> & Lc & _).
    unfold normalize. rewrite (proj2 (validate_ok (PyInt z) (Z.to_nat z))) by (exists z; repeat split; lia).
    cbn [pbind]. rewrite Ec. cbn [pbind]. eexists; split; [reflexivity|].
    assert (Em : map r_output rs = map c_output cs).
    { assert (Fc : Forall (fun c => exists tw r vw, T (d :: x) (c_tagged c) tw /\ reorder (engine_orders en) (c_tagged c) = Ok r /\ V r (c_output c) vw) cs).
      { apply Forall_forall. intros c I. eapply candidate_real; [|exact Ec|exact I]. lia. }
      clear - F Fc PO. induction F as [|c res cs rs Ecm F IH]; [reflexivity|]. inversion Fc as [|? ? (tw & r & vw & A & B & C) Fc']; subst.
      cbn [map]. rewrite IH by assumption. f_equal.
      destruct (candidate_mapping_ok _ c tw r vw b A B C) as (toks & Ep & X). rewrite Ecm in X. apply X. }
    unfold answer_of. destruct (_ =? 1); [|exact Em].
    pose proof (candidates_nonempty _ _ _ _ _ Ec) as Nc. pose proof (Forall2_length F) as Le.
    destruct cs as [|c cs]; [congruence|]. destruct rs as [|res rs]; [discriminate|]. cbn [map hd] in *. injection Em as -> _. reflexivity.
Qed.
Theorem mapping_errors : forall fuel x v b e, x <> [] -> normalize_with_mapping fuel en x v b = PErr e ->
  normalize fuel en x v = PErr e \/
  (e = PAlign (AlignmentError SplitCodePoint) \/ e = PAlign (AlignmentError NothingConsumed)).
Proof.
  intros fuel x v b e Nx E. unfold normalize_with_mapping in E. unfold normalize.
  destruct (validate_nbest v) as [n|e'] eqn:Ev; cbn [pbind] in *; [|left; injection E as ->; reflexivity].
  destruct x as [|d x]; [congruence|].
  destruct (normalization_candidates fuel en (d :: x) n) as [cs|e'] eqn:Ec; cbn [pbind] in *; [|left; injection E as ->; reflexivity].
  destruct (map_pres _ cs) as [rs|e'] eqn:Em; cbn [pbind] in E; [discriminate|]. injection E as ->.
  apply map_pres_err in Em. destruct Em as (c & I & Em). right.
  apply validate_ok in Ev. destruct Ev as (z & _ & L & ->).
  destruct (candidate_real fuel (d :: x) (Z.to_nat z) cs c ltac:(lia) Ec I) as (tw & r & vw & A & B & C).
  destruct (candidate_mapping_ok _ c tw r vw b A B C) as (toks & Ep & X). rewrite Em in X. exact X.
Qed.
End Map.

(** ** tag, then verbalize (C23) *)
Section Two.
Variable en : engine.
Variables T V : text -> wset.
Hypothesis O : search_oracle en T V.
Hypothesis BO : best_oracle en T V.

Lemma verbalize_unfold : forall t r, reorder (engine_orders en) t = Ok r ->
  verbalize en t =
  (arcs <~ of_fuel (linear_arcs (verb_machine en r None)) ;;
   '(output, _) <~ of_align (transduce_with_spans r [] (verb_machine en r None) arcs (verb_string en r None)) ;; POk output).
Proof.
  intros t r Hr. destruct (reorder_inv _ _ _ Hr) as (spans & toks & Es & Ep).
  unfold verbalize. destruct t as [|c t]; [discriminate|].
  unfold verbalize_tagged. rewrite Ep. cbn [of_parse pbind]. rewrite Es. cbn [of_parse pbind].
  destruct (of_fuel _) as [arcs|]; cbn [pbind]; [|reflexivity].
  destruct (of_align _) as [[out outs]|]; reflexivity.
Qed.
Lemma verbalize_best : forall t r, reorder (engine_orders en) t = Ok r -> (exists o w, V r o w) ->
  exists o w, verbalize en t = POk o /\ V r o w /\ least (V r) w.
Proof.
  intros t r Hr (o' & w' & Hv). rewrite (verbalize_unfold t r Hr).
  destruct (proj2 BO r) as [(_ & _ & N)|(o & w & arcs & Ho & Hl & Es & Hst & Ha & Hsp)]; [destruct (N _ _ Hv)|].
  rewrite Ha, Es. cbn [of_fuel pbind].
  pose proof (transduce_exact r o (verb_machine en r None) arcs [] Hst Hsp I I) as X.
  destruct (transduce_with_spans r [] _ (AOk arcs) o) as [[out outs]|e]; cbn [of_align pbind].
  - exists o, w. destruct X as (-> & _). repeat split; [exact Ho|apply Hl|apply Hl].
  - exfalso. destruct e as [[]| | |]; try exact X. destruct X as (k & _ & _ & L & _). cbn in L; lia.
Qed.
Lemma verbalize_none : forall t r, reorder (engine_orders en) t = Ok r -> encodable r -> (forall o w, ~ V r o w) ->
  verbalize en t = PErr (PAlign (AlignmentError NoPath)).
Proof.
  intros t r Hr He N. rewrite (verbalize_unfold t r Hr).
  destruct (proj2 BO r) as [(Hs & Ha & _)|(o & w & arcs & Ho & _)]; [|destruct (N _ _ Ho)].
  rewrite Ha. cbn [of_fuel pbind]. unfold transduce_with_spans. rewrite (text_boundaries_ok r He). cbn [abind].
  unfold character_spans_to_byte_spans. cbn. rewrite Hs. reflexivity.
Qed.
Lemma tag_best : forall x t, x <> [] -> tag en x (PyInt 1) = POk (One t) <-> tag_string en x = Some t.
Proof.
  intros x t Nx. unfold tag. cbn [validate_nbest]. cbn. destruct x as [|c x]; [congruence|].
  destruct (tag_string en (c :: x)) as [t'|]; split; try discriminate; intros E; injection E as ->; reflexivity.
Qed.

Theorem tag_spec : forall x z, x <> [] -> (1 <= z)%Z ->
  match tag en x (PyInt z) with
  | POk (One t) => z = 1%Z /\ exists w, T x t w /\ least (T x) w
  | POk (Many l) => z <> 1%Z /\ exists best, kbest (T x) (Z.to_nat z) best /\ l = map fst best
  | PErr e => e = PFst /\ z = 1%Z /\ forall t w, ~ T x t w
  end.
Proof.
  intros x z Nx L. unfold tag.
  rewrite (proj2 (validate_ok (PyInt z) (Z.to_nat z))) by (exists z; repeat split; lia). cbn [pbind].
  destruct x as [|c x]; [congruence|]. destruct (Nat.eqb_spec (Z.to_nat z) 1).
  - pose proof (proj1 BO (c :: x)) as B. destruct (tag_string en (c :: x)).
    + split; [lia|exact B].
    + split; [reflexivity|]. split; [lia|exact B].
  - split; [lia|]. exists (tag_paths en (c :: x) (Z.to_nat z)). split; [apply O|reflexivity].
Qed.

Theorem tag_then_verbalize : forall x t tw r o vw, x <> [] -> finite (T x) ->
  T x t tw -> (forall t' w', T x t' w' -> t' <> t -> (tw < w')%Z) ->
  reorder (engine_orders en) t = Ok r ->
  V r o vw -> (forall o' w', V r o' w' -> o' <> o -> (vw < w')%Z) ->
  tag en x (PyInt 1) = POk (One t) /\ verbalize en t = POk o /\
  forall fuel ans, normalize fuel en x (PyInt 1) = POk ans -> ans = One o.
Proof.
  intros x t tw r o vw Nx FT Ht Ut Hr Ho Uo.
  assert (Only : forall t' w', T x t' w' -> (w' <= tw)%Z -> t' = t).
  { intros t' w' H L. destruct (text_eq_dec t' t) as [E|N]; [exact E|]. specialize (Ut t' w' H N). lia. }
  assert (Only2 : forall o' w', V r o' w' -> (w' <= vw)%Z -> o' = o).
  { intros o' w' H L. destruct (text_eq_dec o' o) as [E|N]; [exact E|]. specialize (Uo o' w' H N). lia. }
  split; [|split].
  - apply tag_best; [exact Nx|]. pose proof (proj1 BO x) as B. destruct (tag_string en x) as [t'|]; [|destruct (B _ _ Ht)].
    destruct B as (w & Hw & _ & Hl). f_equal. apply (Only t' w Hw). exact (Hl t tw Ht).
  - destruct (verbalize_best t r Hr (ex_intro _ o (ex_intro _ vw Ho))) as (o' & w & E & Hw & _ & Hl). rewrite E. f_equal.
    apply (Only2 o' w Hw). exact (Hl o vw Ho).
  - intros fuel ans E. destruct (normalize_shape _ _ _ _ _ E) as (z & Ez & _ & S). injection Ez as <-.
    destruct ans as [o'|l]; [|lia]. f_equal.
    destruct (normalize_best en T V O fuel x o' Nx FT E) as (t' & r' & tw' & b & Ht' & Hr' & Hv' & Hb & Hmin).
    assert (t' = t). { apply (Only t' tw' Ht'). exact (Hmin t r tw o vw Ht Hr Ho). }
    subst t'. rewrite Hr in Hr'. injection Hr' as <-. apply (Only2 o' b Hv'). exact (proj2 Hb o vw Ho).
Qed.
End Two.
