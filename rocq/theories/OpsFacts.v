(** Generic reasoning about operations: what every operation does to the world. *)
From Verif Require Import Base BaseFacts Rng Utils Relationship RelationshipFacts Frame Gens Clock Attribute AttributeFacts World Story Ops.

(** ** The monad *)

Lemma bindM_ok {A B} (m : M A) (f : A -> M B) w b w' :
  bindM m f w = (Ok b, w') -> exists a w1, m w = (Ok a, w1) /\ f a w1 = (Ok b, w').
Proof. unfold bindM. destruct (m w) as [[a|e] w1]; intros H; [eauto|discriminate]. Qed.

Lemma lift_ok {A} (r : result A) w a w' : lift r w = (Ok a, w') -> r = Ok a /\ w' = w.
Proof. unfold lift. intros [= -> ->]. auto. Qed.

Lemma deref_ok {A} (heap : world -> list A) i w x w' :
  deref heap i w = (Ok x, w') -> nth_error (heap w) i = Some x /\ w' = w.
Proof. unfold deref. destruct (nth_error (heap w) i); intros [= -> ->]; auto. Qed.

Definition keeps {A} (P : world -> world -> Prop) (m : M A) : Prop := forall w, P w (snd (m w)).

(** ** Induction on operations *)
Section OpInd.
  Context (Q : op -> Prop).
  Hypothesis Hbase : forall o, (forall ops, o <> OpChain ops) -> Q o.
  Hypothesis Hchain : forall ops, Forall Q ops -> Q (OpChain ops).
  Fixpoint op_ind' (o : op) : Q o.
  Proof.
    refine (match o with
            | OpChain ops => Hchain ops ((fix go (l : list op) : Forall Q l :=
                match l with [] => Forall_nil _ | o :: l' => Forall_cons _ (op_ind' o) (go l') end) ops)
            | _ => _
            end); apply Hbase; intros; discriminate.
  Defined.
End OpInd.

(** ** Which stories an operation forces or resets *)
Fixpoint forces_story (a : nat) (o : op) : bool :=
  match o with
  | OpForce b _ _ => a =? b
  | OpChain ops => existsb (forces_story a) ops
  | _ => false
  end.
Fixpoint resets_story (a : nat) (o : op) : bool :=
  match o with
  | OpReset b _ => a =? b
  | OpChain ops => existsb (resets_story a) ops
  | _ => false
  end.
Fixpoint transits_story (a : nat) (o : op) : bool :=
  match o with
  | OpTransit b _ _ _ => a =? b
  | OpBack b _ => a =? b
  | OpChain ops => existsb (transits_story a) ops
  | _ => false
  end.

(** ** What an operation may do to one object *)
Inductive rel_step (r : relationship) : relationship -> Prop :=
| RsSelectOne froms pop discard oto ov rows r' :
    select_one r froms pop discard oto ov = Ok (rows, r') -> rel_step r r'
| RsSelectMany reqs pop discard rows r' :
    select_many r reqs pop discard = Ok (rows, r') -> rel_step r r'
| RsAdd froms tos r' : add_relations r froms tos (WScalar 1) = Ok r' -> rel_step r r'
| RsAddGrouped froms items r' : add_grouped_relations r froms items = Ok r' -> rel_step r r'.

Inductive attr_step (t : series) : series -> Prop :=
| AsUpdate s : attr_step t (snd (attr_update t s))
| AsAdd ids added t' : attr_add t ids added = Ok t' -> attr_step t t'.

Inductive pop_step (p : pop) : pop -> Prop :=
| PsUpdate l : NoDup l ->
    pop_step p (mkPop (index_union (p_ids p) (index_difference l (p_ids p))) (p_size p) (p_attrs p) (p_rels p)).

Inductive gens_step (h : list gen) : list gen -> Prop :=
| GsGenerate i n vs h' : gen_generate h i n = Ok (vs, h') -> gens_step h h'
| GsValues i n q vs h' : random_values h i n q = Ok (vs, h') -> gens_step h h'
| GsDep d obs vs d' h' : dgen_generate h d obs = Ok (vs, d', h') -> gens_step h h'.

Section Keeps.
  Context (P : world -> world -> Prop) (okf okr okt : nat -> Prop).
  Hypothesis Hrefl : forall w, P w w.
  Hypothesis Htrans : forall a b c, P a b -> P b c -> P a c.
  Hypothesis Hclock : forall w c, c_date c = c_date (w_clock w) -> c_step c = c_step (w_clock w) ->
    c_listeners c = c_listeners (w_clock w) -> P w (set_clock c w).
  Hypothesis Hgens : forall w g, gens_step (w_gens w) g -> P w (set_gens g w).
  Hypothesis Hdgens : forall w g, P w (set_dgens g w).
  Hypothesis Hrel : forall w i r r', nth_error (w_rels w) i = Some r -> rel_step r r' ->
    P w (set_rels (set_nth i r' (w_rels w)) w).
  Hypothesis Hattr : forall w i t t', nth_error (w_attrs w) i = Some t -> attr_step t t' ->
    P w (set_attrs (set_nth i t' (w_attrs w)) w).
  Hypothesis Hpop : forall w i p p', nth_error (w_pops w) i = Some p -> pop_step p p' ->
    P w (set_pops (set_nth i p' (w_pops w)) w).
  Hypothesis Hforce : forall a ids, okf a -> keeps P (story_force a ids).
  Hypothesis Hreset : forall a ids, okr a -> keeps P (story_reset a ids).
  Hypothesis Htransit : forall a ids states, okt a -> keeps P (story_transit a ids states).

  Lemma keeps_ret {A} (a : A) : keeps P (ret a).
  Proof. intros w. apply Hrefl. Qed.
  Lemma keeps_raise {A} e : keeps P (@raise A e).
  Proof. intros w. apply Hrefl. Qed.
  Lemma keeps_lift {A} (r : result A) : keeps P (lift r).
  Proof. intros w. apply Hrefl. Qed.
  Lemma keeps_get {A} (f : world -> A) : keeps P (get f).
  Proof. intros w. apply Hrefl. Qed.
  Lemma keeps_deref {A} (h : world -> list A) i : keeps P (deref h i).
  Proof. intros w. unfold deref. destruct (nth_error (h w) i); apply Hrefl. Qed.
  Lemma keeps_bind {A B} (m : M A) (f : A -> M B) :
    keeps P m -> (forall a, keeps P (f a)) -> keeps P (bindM m f).
  Proof.
    intros Hm Hf w. unfold bindM. specialize (Hm w). destruct (m w) as [[a|e] w1]; cbn in *; [|exact Hm].
    eapply Htrans; [exact Hm|apply Hf].
  Qed.
  (** the continuation may use what the first part established *)
  Lemma keeps_bind_dep {A B} (m : M A) (f : A -> M B) w :
    P w (snd (m w)) -> (forall a w1, m w = (Ok a, w1) -> P w1 (snd (f a w1))) -> P w (snd (bindM m f w)).
  Proof.
    intros Hm Hf. unfold bindM. destruct (m w) as [[a|e] w1] eqn:E; cbn in *; [|exact Hm].
    eapply Htrans; [exact Hm|apply Hf; reflexivity].
  Qed.

  Lemma keeps_generate g n : keeps P (generate g n).
  Proof.
    intros w. unfold generate. apply keeps_bind_dep; [apply keeps_get|].
    intros gens w1 [= <- <-]. apply keeps_bind_dep; [apply keeps_lift|].
    intros [vs gens'] w2 E. apply lift_ok in E. destruct E as [E ->].
    apply keeps_bind_dep; [|intros; apply keeps_ret]. cbn. apply Hgens. eapply GsGenerate; eauto.
  Qed.

  (** read one object, compute, write it back *)
  Lemma keeps_call_rel {A} i (f : relationship -> result (A * relationship)) :
    (forall r a r', f r = Ok (a, r') -> rel_step r r') ->
    keeps P (let* r := deref w_rels i in
             let* (a, r') := lift (f r) in
             let* _ := put_rel i r' in ret a).
  Proof.
    intros Hf w. apply keeps_bind_dep; [apply keeps_deref|].
    intros r w1 E. apply deref_ok in E. destruct E as [E ->].
    apply keeps_bind_dep; [apply keeps_lift|].
    intros [a r'] w2 E2. apply lift_ok in E2. destruct E2 as [E2 ->].
    apply keeps_bind_dep; [|intros; apply keeps_ret].
    cbn. eapply Hrel; eauto.
  Qed.

  Lemma keeps_rel_add i froms tos : keeps P (rel_add i froms tos).
  Proof.
    intros w. unfold rel_add. apply keeps_bind_dep; [apply keeps_deref|].
    intros r w1 E. apply deref_ok in E. destruct E as [E ->].
    apply keeps_bind_dep; [apply keeps_lift|].
    intros r' w2 E2. apply lift_ok in E2. destruct E2 as [E2 ->].
    cbn. eapply Hrel; [exact E|]. eapply RsAdd; eauto.
  Qed.

  Lemma keeps_rel_add_grouped i froms items : keeps P (rel_add_grouped i froms items).
  Proof.
    intros w. unfold rel_add_grouped. apply keeps_bind_dep; [apply keeps_deref|].
    intros r w1 E. apply deref_ok in E. destruct E as [E ->].
    apply keeps_bind_dep; [apply keeps_lift|].
    intros r' w2 E2. apply lift_ok in E2. destruct E2 as [E2 ->].
    cbn. eapply Hrel; [exact E|]. eapply RsAddGrouped; eauto.
  Qed.

  Lemma keeps_update_attr i s : keeps P (update_attr i s).
  Proof.
    intros w. unfold update_attr. apply keeps_bind_dep; [apply keeps_deref|].
    intros t w1 E. apply deref_ok in E. destruct E as [E ->].
    destruct (attr_update t s) as [res t'] eqn:U.
    apply keeps_bind_dep; [|intros; apply keeps_lift].
    cbn. apply Hattr with (t := t); [exact E|].
    replace t' with (snd (attr_update t s)) by (rewrite U; reflexivity). constructor.
  Qed.

  Lemma keeps_foreach {A} (f : A -> M unit) l : (forall x, keeps P (f x)) -> keeps P (foreach f l).
  Proof.
    intros Hf. induction l as [|x l IH]; [apply keeps_ret|].
    apply keeps_bind; [apply Hf|intros; exact IH].
  Qed.

  Lemma keeps_get_attribute p name : keeps P (get_attribute p name).
  Proof. apply keeps_bind; [apply keeps_deref|intros; apply keeps_lift]. Qed.

  Lemma keep_last_keys {A} (rows : list (val * A)) :
    NoDup (map fst (keep_last rows)) /\ forall k, In k (map fst (keep_last rows)) <-> In k (map fst rows).
  Proof.
    induction rows as [|r rows IH]; cbn; [split; [constructor|tauto]|].
    destruct IH as [I1 I2]. destruct (mem (fst r) (map fst rows)) eqn:E.
    - split; [exact I1|]. intros k. rewrite I2. apply mem_In in E. split; [auto|].
      intros [<-|H]; auto.
    - apply mem_not_In in E. cbn. split.
      + constructor; [|exact I1]. rewrite I2. exact E.
      + intros k. rewrite I2. tauto.
  Qed.

  Lemma keeps_pop_update p d : keeps P (pop_update p d).
  Proof.
    intros w. unfold pop_update. apply keeps_bind_dep; [apply keeps_deref|].
    intros po w1 E. apply deref_ok in E. destruct E as [E ->].
    destruct (negb (same_names _ _)); [apply keeps_raise|].
    destruct (negb (nodupb (df_cols d))); [apply keeps_raise|].
    apply keeps_bind_dep.
    - cbn. eapply Hpop; [exact E|]. apply (PsUpdate po (map fst (keep_last (df_rows d)))).
      apply keep_last_keys.
    - intros _ w2 _. apply keeps_foreach. intros name.
      apply keeps_bind; [apply keeps_lift|intros s].
      apply keeps_bind; [apply keeps_get_attribute|intros a]. apply keeps_update_attr.
  Qed.

  Lemma keeps_attr_values p name ids : keeps P (get_attribute_values p name ids).
  Proof.
    apply keeps_bind; [apply keeps_get_attribute|intros a].
    apply keeps_bind; [apply keeps_deref|intros; apply keeps_lift].
  Qed.

  Lemma keeps_lookup_columns p cells select : keeps P (lookup_columns p cells select).
  Proof.
    induction select as [|[attribute named] select IH]; cbn [lookup_columns]; [apply keeps_ret|].
    apply keeps_bind; [apply keeps_attr_values|intros t].
    destruct (negb (nodupb (dkeys t))); [apply keeps_raise|].
    apply keeps_bind; [apply keeps_lift|intros c].
    apply keeps_bind; [exact IH|intros; apply keeps_ret].
  Qed.

  Lemma keeps_lookup_output p f select d : keeps P (lookup_output p f select d).
  Proof.
    unfold lookup_output. destruct (negb (nodupb _)); [apply keeps_raise|].
    destruct (df_rows d); [apply keeps_ret|].
    apply keeps_bind; [apply keeps_lift|intros ids].
    apply keeps_bind; [apply keeps_lookup_columns|intros; apply keeps_ret].
  Qed.

  Lemma keeps_if_rows d m : keeps P m -> keeps P (if_rows d m).
  Proof. intros H. unfold if_rows. destruct (df_rows d); [apply keeps_ret|exact H]. Qed.
  Lemma keeps_side_effect d m : keeps P m -> keeps P (side_effect d m).
  Proof. intros H. apply keeps_bind; [exact H|intros; apply keeps_ret]. Qed.
  Lemma keeps_transformed m : keeps P m -> keeps P (transformed m).
  Proof. intros H. apply keeps_bind; [exact H|intros; apply keeps_ret]. Qed.

  Lemma keeps_back a judge d : okt a -> keeps P (back_to_default a judge d).
  Proof.
    intros Ha.
    unfold back_to_default. apply keeps_bind; [apply keeps_deref|intros s].
    destruct (negb (known s (df_index d))); [apply keeps_raise|].
    destruct (filter _ (df_index d)); [apply keeps_ret|].
    apply keeps_bind; [apply keeps_lift|intros bp].
    apply keeps_bind.
    - destruct (forallb _ bp); [apply keeps_ret|]. destruct (forallb _ bp); [apply keeps_ret|].
      apply keeps_bind; [apply keeps_generate|intros bl].
      apply keeps_bind; [apply keeps_lift|intros; apply keeps_ret].
    - intros cond. apply Htransit, Ha.
  Qed.

  Lemma keeps_timestamp {A} size random (k : list Z -> M A) : (forall l, keeps P (k l)) ->
    keeps P (let* c := get w_clock in
             let* (dates, c') := lift (get_timestamp c size random) in
             let* _ := modify (set_clock c') in k dates).
  Proof.
    intros Hk w. apply keeps_bind_dep; [apply keeps_get|].
    intros c w1 [= <- <-]. apply keeps_bind_dep; [apply keeps_lift|].
    intros [dates c'] w2 E. apply lift_ok in E. destruct E as [E ->].
    apply keeps_bind_dep; [|intros; apply Hk].
    cbn. unfold get_timestamp in E. destruct random.
    - destruct (choice _ _ _) as [[ks st]|]; [|discriminate]. cbn in E. injection E as _ <-.
      apply Hclock; reflexivity.
    - injection E as _ <-. apply Hclock; reflexivity.
  Qed.

  Lemma keeps_run_list (run : op -> df -> M (df * logs)) ops :
    (forall o d, In o ops -> keeps P (run o d)) -> forall d l, keeps P (run_list run ops d l).
  Proof.
    induction ops as [|o ops IH]; intros H d l; cbn [run_list]; [apply keeps_ret|].
    apply keeps_bind; [apply H; now left|]. intros [out supp].
    apply keeps_bind; [apply keeps_lift|]. intros all.
    apply IH. intros o' d' Ho. apply H. now right.
  Qed.

  Lemma run_op_keeps o : (forall a, forces_story a o = true -> okf a) ->
    (forall a, resets_story a o = true -> okr a) ->
    (forall a, transits_story a o = true -> okt a) -> forall d, keeps P (run_op o d).
  Proof.
    induction o as [o Hb|ops IH] using op_ind'; intros Hf Hr Ht d.
    - destruct o; cbn [run_op].
      + apply keeps_bind; [apply keeps_lift|intros; apply keeps_ret].
      + apply keeps_transformed, keeps_lift.
      + apply keeps_transformed. apply keeps_bind; [apply keeps_lift|intros; apply keeps_lift].
      + apply keeps_transformed. apply keeps_timestamp. intros l.
        apply keeps_bind; [apply keeps_lift|intros; apply keeps_lift].
      + apply keeps_transformed. apply keeps_bind; [apply keeps_lift|intros q].
        intros w. apply keeps_bind_dep; [apply keeps_get|]. intros gens w1 [= <- <-].
        apply keeps_bind_dep; [apply keeps_lift|]. intros [vs gens'] w2 E. apply lift_ok in E. destruct E as [E ->].
        apply keeps_bind_dep; [cbn; apply Hgens; eapply GsValues; eauto|intros _ w2 _].
        apply keeps_bind; [apply keeps_lift|intros; apply keeps_lift].
      + apply keeps_transformed. apply keeps_bind; [apply keeps_lift|intros obs].
        apply keeps_bind; [apply keeps_deref|intros dg].
        intros w. apply keeps_bind_dep; [apply keeps_get|]. intros gens w1 [= <- <-].
        apply keeps_bind_dep; [apply keeps_lift|]. intros [[vs dg'] gens'] w2 E. apply lift_ok in E. destruct E as [E ->].
        apply keeps_bind_dep; [cbn; apply Hgens; eapply GsDep; eauto|intros _ w2 _].
        apply keeps_bind; [apply keeps_get|intros dgens].
        apply keeps_bind; [intros w3; apply Hdgens|intros _].
        apply keeps_bind; [apply keeps_lift|intros; apply keeps_lift].
      + apply keeps_transformed. apply keeps_bind; [apply keeps_lift|intros fr].
        apply keeps_bind; [apply keeps_deref|intros rl].
        apply keeps_bind; [apply keeps_lift|intros; apply keeps_lift].
      + apply keeps_transformed. apply keeps_bind; [apply keeps_lift|intros fr].
        destruct (reserved named_as); [apply keeps_raise|].
        apply keeps_bind; [|intros; apply keeps_lift].
        apply keeps_call_rel. intros r a r' E. eapply RsSelectOne; eauto.
      + apply keeps_transformed. apply keeps_bind; [apply keeps_deref|intros; apply keeps_lift].
      + apply keeps_transformed. apply keeps_bind; [apply keeps_lift|intros fr].
        apply keeps_bind; [apply keeps_lift|intros qs].
        apply keeps_bind; [apply keeps_lift|intros ns].
        destruct (reserved named_as); [apply keeps_raise|].
        apply keeps_bind; [|intros; apply keeps_lift].
        apply keeps_call_rel. intros r a r' E. eapply RsSelectMany; eauto.
      + apply keeps_side_effect, keeps_if_rows.
        apply keeps_bind; [apply keeps_lift|intros fr].
        apply keeps_bind; [apply keeps_lift|intros it]. apply keeps_rel_add.
      + apply keeps_side_effect, keeps_if_rows.
        apply keeps_bind; [apply keeps_lift|intros fr].
        apply keeps_bind; [apply keeps_lift|intros it].
        apply keeps_bind; [apply keeps_lift|intros ls]. apply keeps_rel_add_grouped.
      + apply keeps_side_effect, keeps_if_rows, keeps_raise.
      + apply keeps_side_effect, keeps_if_rows.
        apply keeps_bind; [apply keeps_lift|intros vs].
        apply keeps_bind; [apply keeps_lift|intros ids]. apply keeps_update_attr.
      + apply keeps_side_effect, keeps_if_rows.
        apply keeps_bind; [apply keeps_lift|intros vs].
        apply keeps_bind; [apply keeps_lift|intros values].
        apply keeps_bind; [apply keeps_lift|intros ids].
        intros w. apply keeps_bind_dep; [apply keeps_deref|].
        intros t w1 E. apply deref_ok in E. destruct E as [E ->].
        apply keeps_bind_dep; [apply keeps_lift|].
        intros t' w2 E2. apply lift_ok in E2. destruct E2 as [E2 ->].
        cbn. eapply Hattr; [exact E|]. eapply AsAdd; eauto.
      + apply keeps_transformed. apply keeps_bind; [apply keeps_lookup_output|intros; apply keeps_lift].
      + apply keeps_side_effect. apply keeps_bind; [apply keeps_lift|intros cs].
        apply keeps_bind; [apply keeps_lift|intros ids]. apply keeps_pop_update.
      + apply keeps_side_effect, keeps_if_rows.
        apply keeps_bind; [apply keeps_lift|intros ids]. apply Hforce, Hf. cbn. apply Nat.eqb_refl.
      + apply keeps_side_effect. destruct id_field.
        * apply keeps_bind; [apply keeps_lift|intros ids]. apply Hreset, Hr. cbn. apply Nat.eqb_refl.
        * apply Hreset, Hr. cbn. apply Nat.eqb_refl.
      + apply keeps_side_effect. apply keeps_bind; [apply keeps_lift|intros ids]. apply Htransit, Ht. cbn. apply Nat.eqb_refl.
      + apply keeps_side_effect, keeps_back, Ht. cbn. apply Nat.eqb_refl.
      + exfalso. eapply Hb. reflexivity.
    - cbn [run_op]. apply keeps_run_list. intros o d' Ho.
      rewrite Forall_forall in IH. apply IH; [exact Ho| | |].
      + intros a Ha. apply Hf. cbn. apply existsb_exists. eauto.
      + intros a Ha. apply Hr. cbn. apply existsb_exists. eauto.
      + intros a Ha. apply Ht. cbn. apply existsb_exists. eauto.
  Qed.

  Lemma run_chain_keeps ops : (forall a o, In o ops -> forces_story a o = true -> okf a) ->
    (forall a o, In o ops -> resets_story a o = true -> okr a) ->
    (forall a o, In o ops -> transits_story a o = true -> okt a) -> forall d, keeps P (run_chain ops d).
  Proof.
    intros Hf Hr Ht d. apply keeps_run_list. intros o d' Ho. apply run_op_keeps; eauto.
  Qed.
End Keeps.
