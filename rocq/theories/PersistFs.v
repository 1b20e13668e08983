(** Saving below a directory only looks at, and only changes, that directory. *)
From Verif Require Import Base BaseFacts Rng Utils Relationship Frame Gens Clock Attribute World Circus Fs SpecFs FsFacts Persist.

Section Graft.
  Context {C : Type}.
  Implicit Types n t : node C.

  (** [t] put in place of what is at [p] *)
  Fixpoint graft (n : node C) (p : path) (t : node C) : node C :=
    match p with
    | [] => t
    | c :: p' => match n with
                 | Dir es => match dget c es with
                             | Some k => Dir (dset c (graft k p' t) es)
                             | None => n
                             end
                 | File _ => n
                 end
    end.

  Lemma lookup_graft n p t t0 : lookup n p = Some t0 -> lookup (graft n p t) p = Some t.
  Proof.
    revert n; induction p as [|c p IH]; intros n H; [easy|].
    destruct n as [x|es]; [easy|]. cbn in H |- *. destruct (dget c es) as [k|] eqn:E; [|easy].
    cbn. rewrite dget_dset, keqb_refl. now apply IH.
  Qed.

  Lemma graft_graft n p t t' : graft (graft n p t) p t' = graft n p t'.
  Proof.
    revert n; induction p as [|c p IH]; intros n; [easy|].
    destruct n as [x|es]; [easy|]. cbn. destruct (dget c es) as [k|] eqn:E.
    - cbn. rewrite dget_dset, keqb_refl. now rewrite IH, dset_dset.
    - cbn. now rewrite E.
  Qed.

  Lemma dset_same (c : string) k (es : list (string * node C)) : dget c es = Some k -> dset c k es = es.
  Proof.
    induction es as [|[c' x] es IH]; cbn; [easy|]. destruct (keqb_spec c c') as [->|Hn].
    - now intros [= ->].
    - intros H. now rewrite IH.
  Qed.

  Lemma graft_same n p t : lookup n p = Some t -> graft n p t = n.
  Proof.
    revert n; induction p as [|c p IH]; intros n H; [now injection H|].
    destruct n as [x|es]; [easy|]. cbn in H |- *. destruct (dget c es) as [k|] eqn:E; [|easy].
    rewrite IH by easy. now rewrite dset_same.
  Qed.

  Lemma graft_see n p t t0 : lookup n p = Some t0 ->
    (forall r, see (graft n p t) (p ++ r) = see t r) /\ (forall q, ~ at_or_below p q -> see (graft n p t) q = see n q).
  Proof.
    intros L. split.
    - intros r. apply see_app. eapply lookup_graft; eauto.
    - revert n L; induction p as [|c p IH]; intros n L q Hq; [exfalso; apply Hq; now exists q|].
      destruct n as [x|es]; [easy|]. cbn in L |- *. destruct (dget c es) as [k|] eqn:E; [|easy].
      destruct q as [|d q]; [easy|]. rewrite !see_cons, dget_dset. destruct (keqb_spec d c) as [->|Hn].
      + rewrite E. apply IH; [easy|]. intros [r ->]. apply Hq. now exists r.
      + reflexivity.
  Qed.

  (** a call of the system at [p ++ q] is the call at [q] on what is at [p] *)
  Definition local_call (f : node C -> path -> result (node C)) : Prop :=
    forall n p q t, q <> [] -> lookup n p = Some t -> f n (p ++ q) = rmap (graft n p) (f t q).

  Lemma path_exists_local n p q t : lookup n p = Some t -> path_exists n (p ++ q) = path_exists t q.
  Proof. intros L. unfold path_exists. now rewrite lookup_app, L. Qed.

  Lemma insert_local m : local_call (fun n p => insert_at n p m).
  Proof.
    intros n p q t Hq. revert n; induction p as [|c p IH]; intros n L.
    - injection L as ->. cbn. destruct (insert_at t q m); easy.
    - destruct n as [x|es]; [easy|]. cbn [lookup] in L. destruct (dget c es) as [k|] eqn:E; [|easy].
      cbn [app]. rewrite insert_cons by (destruct p; [exact Hq|easy]). rewrite E, (IH k L).
      destruct (insert_at t q m); cbn; [|easy]. now rewrite E.
  Qed.

  Lemma delete_local : local_call (fun n p => delete_at n p).
  Proof.
    intros n p q t Hq. revert n; induction p as [|c p IH]; intros n L.
    - injection L as ->. cbn. destruct (delete_at t q); easy.
    - destruct n as [x|es]; [easy|]. cbn [lookup] in L. destruct (dget c es) as [k|] eqn:E; [|easy].
      cbn [app]. rewrite delete_cons by (destruct p; [exact Hq|easy]). rewrite E, (IH k L).
      destruct (delete_at t q); cbn; [|easy]. now rewrite E.
  Qed.

  Lemma make_path_local : local_call (fun n p => make_path n p).
  Proof.
    intros n p q t Hq. revert n; induction p as [|c p IH]; intros n L.
    - injection L as ->. cbn. destruct (make_path t q); easy.
    - destruct n as [x|es]; [easy|]. cbn [lookup] in L. destruct (dget c es) as [k|] eqn:E; [|easy].
      cbn [app make_path]. rewrite E, (IH k L). destruct (make_path t q); cbn; [|easy]. now rewrite E.
  Qed.

  Lemma write_local c : local_call (fun n p => write_file n p c).
  Proof.
    intros n p q t Hq L. unfold write_file. rewrite lookup_app, L.
    destruct (lookup t q) as [[x|es]|]; [|easy|]; apply insert_local; auto.
  Qed.

  Lemma mkdir_local : local_call (fun n p => os_mkdir n p).
  Proof.
    intros n p q t Hq L. unfold os_mkdir. rewrite (path_exists_local n p q t L).
    destruct (path_exists t q); [easy|]. now apply insert_local.
  Qed.

  Lemma makedirs_local : local_call (fun n p => os_makedirs n p).
  Proof.
    intros n p q t Hq L. unfold os_makedirs. rewrite (path_exists_local n p q t L).
    destruct (path_exists t q); [easy|]. now apply make_path_local.
  Qed.

  Lemma ensure_folder_local : local_call (fun n p => ensure_folder_exists n p).
  Proof.
    intros n p q t Hq L. unfold ensure_folder_exists. rewrite (path_exists_local n p q t L).
    destruct (path_exists t q); [|now apply makedirs_local]. cbn. now rewrite graft_same.
  Qed.

  Lemma ensure_gone_local : local_call (fun n p => ensure_non_existing_dir n p).
  Proof.
    intros n p q t Hq L. unfold ensure_non_existing_dir. rewrite lookup_app, L.
    destruct (lookup t q) as [u|] eqn:E.
    - rewrite ensure_gone_delete.
      + rewrite (ensure_gone_delete u t q) by easy. now apply delete_local.
      + now rewrite lookup_app, L.
      + destruct p; [exact Hq|easy].
    - cbn. now rewrite graft_same.
  Qed.
End Graft.

(** ** whole computations *)
Definition lifted {A} (n : node doc) (p : path) (r : result A * node doc) : result A * node doc :=
  (fst r, graft n p (snd r)).

Definition local {A} (p : path) (m m' : F A) : Prop :=
  forall n t, lookup n p = Some t -> m n = lifted n p (m' t).

Lemma local_ret {A} p (a : A) : local p (retF a) (retF a).
Proof. intros n t L. unfold retF, lifted. cbn. now rewrite graft_same. Qed.
Lemma local_raise {A} p e : local p (@raiseF A e) (raiseF e).
Proof. intros n t L. unfold raiseF, lifted. cbn. now rewrite graft_same. Qed.

Lemma local_sys p q (f : node doc -> path -> result (node doc)) : local_call f -> q <> [] ->
  local p (sys (fun n => f n (p ++ q))) (sys (fun n => f n q)).
Proof.
  intros Hf Hq n t L. unfold sys, lifted. rewrite (Hf n p q t Hq L).
  destruct (f t q); cbn; [easy|]. now rewrite graft_same.
Qed.

Lemma local_bind {A B} p (m m' : F A) (k k' : A -> F B) :
  local p m m' -> (forall a, local p (k a) (k' a)) -> local p (bindF m k) (bindF m' k').
Proof.
  intros Hm Hk n t L. unfold bindF. rewrite (Hm n t L). unfold lifted. destruct (m' t) as [[a|e] t1]; cbn; [|easy].
  rewrite (Hk a (graft n p t1) t1).
  - unfold lifted. cbn. now rewrite graft_graft.
  - eapply lookup_graft; eauto.
Qed.

Lemma local_foreach {A} p (f f' : A -> F unit) l : (forall x, local p (f x) (f' x)) ->
  local p (foreachF f l) (foreachF f' l).
Proof.
  intros H. induction l as [|x l IH]; cbn; [apply local_ret|]. apply local_bind; auto.
Qed.

Lemma local_if {A} p (b : bool) (m1 m1' m2 m2' : F A) : local p m1 m1' -> local p m2 m2' ->
  local p (if b then m1 else m2) (if b then m1' else m2').
Proof. now destruct b. Qed.

Lemma local_run {A} p (m m' : F A) n t : local p m m' -> lookup n p = Some t ->
  m n = lifted n p (m' t).
Proof. intros H L. now apply H. Qed.
