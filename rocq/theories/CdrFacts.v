(** Facts about the functions of the scenario of tests/scenarios/test_cdr.py. *)
From Verif Require Import Base BaseFacts Rng Utils UtilsFacts Relationship RelationshipFacts SpecRelationship Frame Gens Clock SpecClock Attribute SpecAttribute AttributeFacts World Story Ops OpsFacts Helpers
  Circus SpecStory SpecOps OpsProps OpsColumns OpsMore SpecCircus SpecPopulation SpecLocal SpecSupply SpecLedger SpecRecords SpecSafe GeographyLog Geography Cdr SpecCdr.
From Coq Require Import Permutation.

Lemma position_In x l : In x l -> exists i, position x l = Some i /\ nth_error l i = Some x.
Proof.
  induction l as [|y l IH]; intros H; [destruct H|]. cbn [position]. destruct (keqb_spec x y) as [->|N]; [exists 0; split; reflexivity|].
  destruct H as [->|H]; [contradiction|]. destruct (IH H) as (i & -> & E). exists (S i). split; [reflexivity|exact E].
Qed.
Lemma nth_there {A} (l : list A) i n : length l = n -> i < n -> exists x, nth_error l i = Some x.
Proof. intros L H. destruct (nth_error l i) eqn:E; [eauto|]. apply nth_error_None in E. lia. Qed.

Definition chosen (order : list val -> list val) (r : list val) : list val := match do_select order r with Ok l => l | Err _ => [] end.

(** do_select takes the same place in the lists about A, and in those about B; the operators are the same if
    A and B have one in common. *)
Lemma do_select_takes order ma oa sa aa mb ob sb : (forall l, Permutation (order l) l) -> sa <> [] -> sb <> [] ->
  length oa = length sa -> length ma = length sa -> length aa = length sa -> length ob = length sb -> length mb = length sb ->
  exists i j v1 v2 v3 v4 v5 v6 v7, do_select order [VList ma; VList oa; VList sa; VList aa; VList mb; VList ob; VList sb] = Ok [v1; v2; v3; v4; v5; v6; v7] /\
    nth_error ma i = Some v1 /\ nth_error oa i = Some v2 /\ nth_error sa i = Some v3 /\ nth_error aa i = Some v4 /\
    nth_error mb j = Some v5 /\ nth_error ob j = Some v6 /\ nth_error sb j = Some v7 /\ ((exists x, In x oa /\ In x ob) -> v2 = v6).
Proof.
  intros Po Na Nb L1 L2 L3 L4 L5.
  assert (X : exists i j, i < length sa /\ j < length sb /\ ((exists x, In x oa /\ In x ob) -> exists x, nth_error oa i = Some x /\ nth_error ob j = Some x) /\
    match order (filter (fun o => mem o ob) (uniq oa)) with
    | operator :: _ => let! a := index_of operator oa in let! b := index_of operator ob in Ok (a, b)
    | [] => Ok (0, 0)
    end = Ok (i, j)).
  { set (common := filter _ _). specialize (Po common).
    destruct (order common) as [|x l] eqn:E.
    - exists 0, 0. split; [destruct sa; [contradiction|cbn; lia]|]. split; [destruct sb; [contradiction|cbn; lia]|]. split; [|reflexivity].
      apply Permutation_nil in Po. intros (x & Ha & Hb). exfalso. assert (K : In x common) by (apply filter_In; split; [now apply uniq_In|now apply mem_In]). rewrite Po in K. destruct K.
    - assert (K : In x common) by (apply (Permutation_in _ Po); now left). apply filter_In in K as [K1 K2]. apply (proj1 (uniq_In _ _)) in K1. apply mem_In in K2.
      destruct (position_In x oa K1) as (i & E1 & F1). destruct (position_In x ob K2) as (j & E2 & F2). exists i, j.
      split; [rewrite <- L1; apply nth_error_Some; congruence|]. split; [rewrite <- L4; apply nth_error_Some; congruence|]. split; [intros _; eauto|].
      unfold index_of. rewrite E1, E2. reflexivity. }
  destruct X as (i & j & Hi & Hj & Hs & E). unfold do_select. rewrite E. cbn [bind].
  destruct (nth_there ma i _ L2 Hi) as (v1 & E1). destruct (nth_there oa i _ L1 Hi) as (v2 & E2). destruct (nth_there sa i _ eq_refl Hi) as (v3 & E3). destruct (nth_there aa i _ L3 Hi) as (v4 & E4).
  destruct (nth_there mb j _ L5 Hj) as (v5 & E5). destruct (nth_there ob j _ L4 Hj) as (v6 & E6). destruct (nth_there sb j _ eq_refl Hj) as (v7 & E7).
  unfold at_index. rewrite E1, E2, E3, E4, E5, E6, E7. cbn [bind]. exists i, j, v1, v2, v3, v4, v5, v6, v7. repeat (split; [first [reflexivity|assumption]|]).
  intros K. destruct (Hs K) as (x & G1 & G2). congruence.
Qed.
Lemma do_select_length order r l : do_select order r = Ok l -> length l = 7.
Proof.
  unfold do_select. destruct r as [|[]]; try discriminate. do 6 (destruct r as [|[]]; try discriminate). destruct r; try discriminate. intros H.
  apply bind_ok in H as ((i & j) & _ & H). repeat (apply bind_ok in H as (? & _ & H)). now injection H as <-.
Qed.

(** ** The functions work row by row *)
Lemma mapr_rows {A B} (f : A -> result B) (k : A -> B) l out : (forall x y, f x = Ok y -> y = k x) -> mapr f l = Ok out -> out = map k l.
Proof.
  intros Hf. revert out. induction l as [|x l IH]; intros out H; cbn [mapr] in H; [now injection H as <-|].
  apply bind_ok in H as (y & Ey & H). apply bind_ok in H as (ys & Eys & H). injection H as <-. cbn. now rewrite (Hf _ _ Ey), (IH _ Eys).
Qed.
Lemma mapr_all {A B} (f : A -> result B) l out x : mapr f l = Ok out -> In x l -> exists y, f x = Ok y.
Proof.
  revert out. induction l as [|z l IH]; intros out H Hin; [destruct Hin|]. cbn [mapr] in H. apply bind_ok in H as (y & Ey & H). apply bind_ok in H as (ys & Eys & H).
  destruct Hin as [->|Hin]; [eauto|now apply (IH ys)].
Qed.

Lemma select_sims_rows order sources : length sources = 7 -> row_by_row sources 7 (select_sims order) (chosen order).
Proof.
  intros L src out Hc H. unfold select_sims in H. destruct (df_rows src) as [|r0 rs] eqn:Er.
  - injection H as <-. rewrite Hc, Er. split; [exact L|]. split; [reflexivity|intros row []].
  - apply bind_ok in H as (rows & H & E). injection E as <-. cbn [df_cols df_rows]. split; [reflexivity|]. split.
    + apply (mapr_rows _ (fun row : val * list val => (fst row, chosen order (snd row))) _ _) in H; [exact H|]. intros row y K. apply bind_ok in K as (l & El & K). injection K as <-. unfold chosen. now rewrite El.
    + intros row Hin. destruct (mapr_all _ _ _ _ H Hin) as (y & K). apply bind_ok in K as (l & El & K). unfold chosen. rewrite El. eapply do_select_length; eauto.
Qed.

Definition computed (f : Qc -> Qc -> Qc) (r : list val) : list val :=
  match r with [a; b] => [match arith f a b with Ok v => v | Err _ => VNA end] | _ => [] end.
Lemma np_binary_rows f sources : row_by_row sources 1 (np_binary f) (computed f).
Proof.
  intros src out Hc H. unfold np_binary in H. apply bind_ok in H as (rows & H & E). injection E as <-. cbn [df_cols df_rows]. split; [reflexivity|]. split.
  - apply (mapr_rows _ (fun row : val * list val => (fst row, computed f (snd row))) _ _) in H; [exact H|]. intros row y K. unfold computed. destruct (snd row) as [|a [|b [|? ?]]]; try discriminate.
    apply bind_ok in K as (v & -> & K). now injection K as <-.
  - intros row Hin. destruct (mapr_all _ _ _ _ H Hin) as (y & K). unfold computed. destruct (snd row) as [|a [|b [|? ?]]]; try discriminate. reflexivity.
Qed.
Lemma np_binary_runs f d : (forall row, In row (df_rows d) -> exists x y, snd row = [VNum x; VNum y]) -> exists out, np_binary f d = Ok out /\ df_cols out = ["result"%string] /\ df_index out = df_index d.
Proof.
  intros H. unfold np_binary.
  assert (X : exists rows, mapr (fun row : val * list val => match snd row with [a; b] => let! v := arith f a b in Ok (fst row, [v]) | _ => Err Unmodelled end) (df_rows d) = Ok rows /\ map fst rows = df_index d).
  { unfold df_index. revert H. induction (df_rows d) as [|r rs IH]; intros H; [exists []; split; reflexivity|]. cbn [mapr map]. destruct (H r (or_introl eq_refl)) as (x & y & ->). cbn [arith bind].
    destruct IH as (rows & -> & E); [intros row Hr; apply H; now right|]. cbn [bind]. eexists. split; [reflexivity|]. cbn [map fst]. now rewrite E. }
  destruct X as (rows & -> & E). cbn [bind]. eexists. split; [reflexivity|]. split; [reflexivity|exact E].
Qed.

(** compute_call_value looks at the column DURATION only. *)
Definition doubled (r : list val) : list val := match r with [d; _; _] => [match arith Qcmult d (vz 2) with Ok v => v | Err _ => VNA end] | _ => [VNA] end.
Lemma call_value_rows : row_by_row ["DURATION"; "DATETIME"; "TYPE"]%string 1 compute_call_value
  (fun r => [match arith Qcmult (nth 0 r VNA) (vz 2) with Ok v => v | Err _ => VNA end]).
Proof.
  intros src out Hc H. unfold compute_call_value, get_col in H. rewrite Hc in H. cbn [col_pos bind] in H.
  change (col_pos "DURATION" ["DURATION"; "DATETIME"; "TYPE"]%string) with (@Ok nat 0) in H. cbn [bind] in H.
  apply bind_ok in H as (rows & H & E). injection E as <-. cbn [df_cols df_rows]. split; [reflexivity|]. split; [|reflexivity].
  apply (mapr_rows _ (fun kv : val * val => (fst kv, [match arith Qcmult (snd kv) (vz 2) with Ok v => v | Err _ => VNA end])) _ _) in H.
  - rewrite H, map_map. reflexivity.
  - intros kv y K. apply bind_ok in K as (v & -> & K). now injection K as <-.
Qed.
Lemma call_value_runs d : df_cols d = ["DURATION"; "DATETIME"; "TYPE"]%string -> (forall row, In row (df_rows d) -> a_number (nth 0 (snd row) VNA)) ->
  exists out, compute_call_value d = Ok out /\ df_cols out = ["result"%string] /\ df_index out = df_index d.
Proof.
  intros Hc H. unfold compute_call_value, get_col. rewrite Hc. change (col_pos "DURATION" ["DURATION"; "DATETIME"; "TYPE"]%string) with (@Ok nat 0). cbn [bind].
  assert (X : exists rows, mapr (fun kv : val * val => let! v := arith Qcmult (snd kv) (vz 2) in Ok (fst kv, [v])) (map (fun r => (fst r, nth 0 (snd r) VNA)) (df_rows d)) = Ok rows /\ map fst rows = df_index d).
  { unfold df_index. revert H. induction (df_rows d) as [|r rs IH]; intros H; [exists []; split; reflexivity|]. cbn [mapr map fst snd]. destruct (H r (or_introl eq_refl)) as (x & ->). cbn [arith bind vz].
    destruct IH as (rows & -> & E); [intros row Hr; apply H; now right|]. cbn [bind]. eexists. split; [reflexivity|]. cbn [map fst]. now rewrite E. }
  destruct X as (rows & -> & E). cbn [bind]. eexists. split; [reflexivity|]. split; [reflexivity|exact E].
Qed.

Lemma sms_value_rows sources : row_by_row sources 1 compute_sms_value (fun _ => [vz 10]).
Proof.
  intros src out Hc H. injection H as <-. cbn [df_cols df_rows]. split; [reflexivity|]. split; [|reflexivity]. unfold df_index. now rewrite map_map.
Qed.

Lemma combine_same {A B C} (f : A -> B) (g : A -> C) l : combine (map f l) (map g l) = map (fun x => (f x, g x)) l.
Proof. induction l as [|x l IH]; cbn; [reflexivity|]. now rewrite IH. Qed.
Lemma cdr_type_computes d : df_cols d = ["OPERATOR_A"; "OPERATOR_B"]%string -> compute_cdr_type d =
  Ok (mkDf ["result"%string] (map (fun row => (fst row, [VStr (if onnet (nth 0 (snd row) VNA) (nth 1 (snd row) VNA) then "ONNET" else "OFFNET")])) (df_rows d))).
Proof.
  intros Hc. unfold compute_cdr_type, get_col. rewrite Hc. change (col_pos "OPERATOR_A" ["OPERATOR_A"; "OPERATOR_B"]%string) with (@Ok nat 0).
  change (col_pos "OPERATOR_B" ["OPERATOR_A"; "OPERATOR_B"]%string) with (@Ok nat 1). cbn [bind]. rewrite combine_same, map_map. reflexivity.
Qed.
Lemma cdr_type_rows : row_by_row ["OPERATOR_A"; "OPERATOR_B"]%string 1 compute_cdr_type (fun r => [VStr (if onnet (nth 0 r VNA) (nth 1 r VNA) then "ONNET" else "OFFNET")]).
Proof. intros src out Hc H. rewrite (cdr_type_computes src Hc) in H. injection H as <-. cbn [df_cols df_rows]. split; [reflexivity|]. split; reflexivity. Qed.

Definition truth (v : val) : bool := match v with VBool b => b | _ => false end.
Lemma call_status_computes d : df_cols d = ["CELL_A_ACCEPTS"; "CELL_B_ACCEPTS"]%string ->
  (forall row, In row (df_rows d) -> exists x y, snd row = [VBool x; VBool y]) -> compute_call_status d =
  Ok (mkDf ["result"%string] (map (fun row => (fst row, [VStr (if truth (nth 0 (snd row) VNA) && truth (nth 1 (snd row) VNA) then "OK" else "DROPPED")])) (df_rows d))).
Proof.
  intros Hc H. unfold compute_call_status.
  assert (X : forall i name, col_pos name ["CELL_A_ACCEPTS"; "CELL_B_ACCEPTS"]%string = Ok i -> i < 2 -> bool_col d name = Ok (map (fun row => truth (nth i (snd row) VNA)) (df_rows d))).
  { intros i name E Hi. unfold bool_col, get_col. rewrite Hc, E. cbn [bind]. clear - H Hi. induction (df_rows d) as [|r rs IH]; [reflexivity|]. cbn [map mapr].
    destruct (H r (or_introl eq_refl)) as (x & y & Er). rewrite Er. cbn [snd].
    assert (nth i [VBool x; VBool y] VNA = VBool (truth (nth i [VBool x; VBool y] VNA))) as -> by (destruct i as [|[|i]]; [reflexivity|reflexivity|lia]).
    cbn [bind truth]. rewrite IH by (intros row Hr; apply H; now right). reflexivity. }
  rewrite (X 0 "CELL_A_ACCEPTS"%string eq_refl ltac:(lia)), (X 1 "CELL_B_ACCEPTS"%string eq_refl ltac:(lia)). cbn [bind]. unfold df_index. rewrite !combine_same, map_map. reflexivity.
Qed.
Lemma bool_col_is d name i l : col_pos name (df_cols d) = Ok i -> bool_col d name = Ok l -> l = map (fun row => truth (nth i (snd row) VNA)) (df_rows d).
Proof.
  intros E H. unfold bool_col, get_col in H. rewrite E in H. cbn [bind] in H.
  apply (mapr_rows _ (fun kv : val * val => truth (snd kv))) in H; [rewrite H, map_map; reflexivity|]. intros [k v] y K. destruct v; try discriminate. now injection K as <-.
Qed.
Lemma call_status_rows : row_by_row ["CELL_A_ACCEPTS"; "CELL_B_ACCEPTS"]%string 1 compute_call_status
  (fun r => [VStr (if truth (nth 0 r VNA) && truth (nth 1 r VNA) then "OK" else "DROPPED")]).
Proof.
  intros d out Hc H. unfold compute_call_status in H. apply bind_ok in H as (a & Ha & H). apply bind_ok in H as (b & Hb & H). injection H as <-.
  rewrite (bool_col_is d "CELL_A_ACCEPTS" 0 a) by (rewrite ?Hc; trivial). rewrite (bool_col_is d "CELL_B_ACCEPTS" 1 b) by (rewrite ?Hc; trivial).
  cbn [df_cols df_rows]. split; [reflexivity|]. split; [|reflexivity]. unfold df_index. rewrite !combine_same, map_map. reflexivity.
Qed.

(** ** They add the columns they are asked for *)
Lemma rows_add sources named g k : row_by_row sources (length named) g k -> (forall d out, df_cols d = sources -> g d = Ok out -> NoDup (df_cols out)) -> adds (OpApply sources named g) named.
Proof.
  intros Hr Hn. split; [reflexivity|]. intros d out Hc H. destruct (Hr _ _ Hc H) as (L & E & K). split; [|exact L]. split; [exact (Hn _ _ Hc H)|].
  intros row Hin. rewrite E in Hin. apply in_map_iff in Hin as (r & <- & Hin). cbn [snd]. rewrite (K _ Hin). congruence.
Qed.
Lemma one_nodup {A} (x : A) : NoDup [x].
Proof. repeat constructor. intros []. Qed.
Lemma add_binary f sources n : adds (OpApply sources [n] (np_binary f)) [n].
Proof. apply (rows_add _ [n] _ _ (np_binary_rows f sources)). intros d out _ H. unfold np_binary in H. apply bind_ok in H as (? & _ & H). injection H as <-. apply one_nodup. Qed.
Lemma add_call_value n : adds (OpApply ["DURATION"; "DATETIME"; "TYPE"]%string [n] compute_call_value) [n].
Proof. apply (rows_add _ [n] _ _ call_value_rows). intros d out _ H. unfold compute_call_value in H. apply bind_ok in H as (? & _ & H). apply bind_ok in H as (? & _ & H). injection H as <-. apply one_nodup. Qed.
Lemma add_sms_value sources n : adds (OpApply sources [n] compute_sms_value) [n].
Proof. apply (rows_add _ [n] _ _ (sms_value_rows sources)). intros d out _ H. injection H as <-. apply one_nodup. Qed.
Lemma add_type n : adds (OpApply ["OPERATOR_A"; "OPERATOR_B"]%string [n] compute_cdr_type) [n].
Proof. apply (rows_add _ [n] _ _ cdr_type_rows). intros d out Hc H. rewrite (cdr_type_computes _ Hc) in H. injection H as <-. apply one_nodup. Qed.
Lemma add_status n : adds (OpApply ["CELL_A_ACCEPTS"; "CELL_B_ACCEPTS"]%string [n] compute_call_status) [n].
Proof. apply (rows_add _ [n] _ _ call_status_rows). intros d out _ H. unfold compute_call_status in H. apply bind_ok in H as (? & _ & H). apply bind_ok in H as (? & _ & H). injection H as <-. apply one_nodup. Qed.
Lemma add_sims order sources named : NoDup sources -> length sources = 7 -> length named = 7 -> adds (OpApply sources named (select_sims order)) named.
Proof.
  intros N L L'. assert (Hr : row_by_row sources (length named) (select_sims order) (chosen order)) by (rewrite L'; now apply select_sims_rows).
  apply (rows_add _ _ _ _ Hr). intros d out Hc H. unfold select_sims in H. destruct (df_rows d); [injection H as <-; now rewrite Hc|].
  apply bind_ok in H as (? & _ & H). injection H as <-. cbn [df_cols]. apply nodupb_NoDup. reflexivity.
Qed.
Lemma select_sims_runs order d : NoDup (df_cols d) -> (forall row, In row (df_rows d) -> exists l, do_select order (snd row) = Ok l) ->
  exists out, select_sims order d = Ok out /\ NoDup (df_cols out) /\ df_index out = df_index d.
Proof.
  intros N H. unfold select_sims. destruct (df_rows d) as [|r0 rs] eqn:E; [exists d; auto|]. rewrite <- E in *.
  assert (X : exists rows, mapr (fun row : val * list val => let! cells := do_select order (snd row) in Ok (fst row, cells)) (df_rows d) = Ok rows /\ map fst rows = df_index d).
  { unfold df_index. clear E. revert H. induction (df_rows d) as [|r l IH]; intros H; [exists []; split; reflexivity|]. cbn [mapr map]. destruct (H r (or_introl eq_refl)) as (x & ->). cbn [bind].
    destruct IH as (rows & -> & Ex); [intros row Hr; apply H; now right|]. cbn [bind]. eexists. split; [reflexivity|]. cbn [map fst]. now rewrite Ex. }
  destruct X as (rows & -> & Ex). cbn [bind]. eexists. split; [reflexivity|]. cbn [df_cols]. split; [apply nodupb_NoDup; reflexivity|exact Ex].
Qed.
