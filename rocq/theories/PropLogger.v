(** C126.  Loggers built from lists of columns. *)
From Verif Require Import Base BaseFacts Rng Utils Relationship Frame Gens GensProps Clock Attribute World Story Ops Circus
  Logger SpecLogger LoggerProps Samples StorySamples.

(** Whatever loggers are constructed, in whatever order: each one logs the list of columns it was given as the
    list was, followed by the exploded columns of every logger which was given the same list. *)
Theorem C126_columns h l h' xs i a x : Forall (lists_below (length h)) l -> separate l -> new_loggers h l = (h', xs) ->
  nth_error l i = Some a -> nth_error xs i = Some x ->
  logger_op h' x = OpFieldLogger (la_id a)
    match la_cols a with
    | AList r => content h r ++ added h l r
    | c => given h c ++ given h (la_exploded a)
    end (given h (la_exploded a)).
Proof.
  intros Hl Hs E Ha Hx. destruct (new_loggers_spec (length h) l h h' xs (le_n _) Hl Hs E) as (_ & _ & _ & F).
  revert i Ha Hx. generalize F. generalize (added h l). clear. intros ad F.
  induction F as [|b y l xs (F1 & F2 & F3) F IH]; intros [|i] Ha Hx; try discriminate.
  - injection Ha as ->. injection Hx as ->. unfold logger_op. now rewrite F1, F2, F3.
  - exact (IH i Ha Hx).
Qed.
Print Assumptions C126_columns.

(** So a logger does what its arguments say exactly if the loggers given the same list of columns add to it,
    together, its own exploded columns only. *)
Theorem C126_as_described h l h' xs i a x : Forall (lists_below (length h)) l -> separate l -> new_loggers h l = (h', xs) ->
  nth_error l i = Some a -> nth_error xs i = Some x ->
  (logger_op h' x = described h a <-> forall r, la_cols a = AList r -> added h l r = given h (la_exploded a)).
Proof.
  intros Hl Hs E Ha Hx. rewrite (C126_columns h l h' xs i a x Hl Hs E Ha Hx). unfold described. split.
  - intros H r Er. rewrite Er in H. cbn [given] in H. injection H as H. now apply app_inv_head in H.
  - intros H. destruct (la_cols a) as [|s|r] eqn:Er; [reflexivity|reflexivity|]. cbn [given]. now rewrite (H r eq_refl).
Qed.
Print Assumptions C126_as_described.

(** In particular when no other logger was given the list, or only loggers without exploded columns were. *)
Theorem C126_own_list h l h' xs i a x : Forall (lists_below (length h)) l -> separate l -> new_loggers h l = (h', xs) ->
  nth_error l i = Some a -> nth_error xs i = Some x ->
  (forall r j b, la_cols a = AList r -> nth_error l j = Some b -> j <> i -> la_cols b = AList r -> given h (la_exploded b) = []) ->
  logger_op h' x = described h a.
Proof.
  intros Hl Hs E Ha Hx Ho. apply (C126_as_described h l h' xs i a x Hl Hs E Ha Hx). intros r Er.
  pose proof (fun j b => Ho r j b Er) as H. clear Ho Hl Hs E Hx. revert i Ha H.
  assert (Z : forall l, (forall j b, nth_error l j = Some b -> la_cols b = AList r -> given h (la_exploded b) = []) -> added h l r = []).
  { clear. intros l. induction l as [|b l IH]; intros H; [reflexivity|]. rewrite added_cons, IH by (intros j c Hj; exact (H (Datatypes.S j) c Hj)).
    rewrite app_nil_r. unfold added. cbn [flat_map]. rewrite app_nil_r. destruct (la_cols b) as [|s|q] eqn:Eb; try reflexivity.
    destruct (Nat.eqb_spec q r) as [->|_]; [|reflexivity]. exact (H 0 b eq_refl Eb). }
  induction l as [|b l IH]; intros [|i] Ha H; try discriminate.
  - injection Ha as ->. rewrite added_cons, (Z l).
    + unfold added. cbn [flat_map]. rewrite !app_nil_r, Er, Nat.eqb_refl. reflexivity.
    + intros j c Hj. apply (H (Datatypes.S j) c Hj). discriminate.
  - rewrite added_cons, (IH i Ha).
    + replace (added h [b] r) with (@nil string); [reflexivity|]. symmetry. apply Z. intros [|j] c Hj Hc; [|now destruct j].
      injection Hj as <-. apply (H 0 b eq_refl); [discriminate|exact Hc].
    + intros j c Hj Nj. apply (H (Datatypes.S j) c Hj). congruence.
Qed.
Print Assumptions C126_own_list.

(** Loggers sharing a list do not log what they were given: the second logger of two sharing the list
    [NAME], the first of which has an exploded column, raises on story data without that column. *)
Definition base : heap := [["NAME"%string]].
Definition two_loggers : list logger_args :=
  [mkArgs "calls" (AList 0) (AText "CALLS"); mkArgs "names" (AList 0) ANone].
Theorem C126_refuted : exists h l h' xs a x d w,
  Forall (lists_below (length h)) l /\ separate l /\ new_loggers h l = (h', xs) /\
  nth_error l 1 = Some a /\ nth_error xs 1 = Some x /\
  logger_op h' x <> described h a /\
  (exists logged, run_op (described h a) d w = (Ok (d, [(la_id a, logged)]), w) /\ df_cols logged = given h (la_cols a)) /\
  run_op (logger_op h' x) d w = (Err KeyError, w).
Proof.
  exists base, two_loggers. eexists _, _, _, _, (mkDf ["NAME"%string] [(vz 0, [s_ "x"])]), circus0.
  split; [apply Forall_forall; intros a Ha; cbn in Ha; decompose [or] Ha; try contradiction; subst a; split; cbn; intros r H; inversion H; lia|].
  split; [intros a b r [<-|[<-|[]]] _ H; discriminate|].
  split; [reflexivity|]. split; [reflexivity|]. split; [reflexivity|]. split; [discriminate|].
  split; [eexists; split; reflexivity|]. reflexivity.
Qed.
Print Assumptions C126_refuted.

(** Two loggers sharing a list, none of which explodes it, and one with a list of its own. *)
Example C126_example : exists h' xs,
  let h := [["NAME"; "TIME"]; ["ID"]]%string in
  let l := [mkArgs "a" (AList 0) ANone; mkArgs "b" (AList 0) ANone; mkArgs "c" (AList 1) (AText "CALLS")]%string in
  Forall (lists_below (length h)) l /\ separate l /\ new_loggers h l = (h', xs) /\
  map (logger_op h') xs = [OpFieldLogger "a" ["NAME"; "TIME"] []; OpFieldLogger "b" ["NAME"; "TIME"] [];
                           OpFieldLogger "c" ["ID"; "CALLS"] ["CALLS"]]%string.
Proof.
  eexists _, _. cbv zeta. split; [apply Forall_forall; intros a Ha; cbn in Ha; decompose [or] Ha; try contradiction; subst a; split; cbn; intros r H; inversion H; lia|].
  split; [intros a b r [<-|[<-|[<-|[]]]] _ H; discriminate|]. split; reflexivity.
Qed.
