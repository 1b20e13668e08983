(** Properties of value generators (C61, C62, C65, C66, C81-C84). *)
From Verif Require Import Base BaseFacts Rng Utils Frame Gens GensProps Samples.

(** C61.  Whatever the sequence of generate(size) calls, the k-th id ever produced is
    prefix + (start + k) padded to max_length, and no id is ever produced twice. *)
Theorem C61_sequential_ids_unique start prefix w sizes vss g' :
  Forall (fun n => 0 <= n)%Z sizes ->
  heap_calls gen_step (GSeq start prefix w) sizes = Ok (vss, g') ->
  map (@length val) vss = map Z.to_nat sizes /\
  NoDup (concat vss) /\
  forall k, k < length (concat vss) ->
    nth_error (concat vss) k = Some (VStr (prefix ++ zfill w (str_of_Z (start + Z.of_nat k)))).
Proof. exact (sequential_unique start prefix w sizes vss g'). Qed.
Print Assumptions C61_sequential_ids_unique.

(** It never raises. *)
Theorem C61_sequential_total start prefix w sizes :
  exists vss g', heap_calls gen_step (GSeq start prefix w) sizes = Ok (vss, g').
Proof. exact (seq_calls_total prefix w sizes start). Qed.
Print Assumptions C61_sequential_total.

(** beyond max_length digits: width 1, ids 8, 9, 10 in two calls *)
Example C61_example :
  exists vss g', heap_calls gen_step (GSeq 8 "p" 1) [2; 0; 1]%Z = Ok (vss, g') /\
    vss = [[s_ "p8"; s_ "p9"]; []; [s_ "p10"]].
Proof. eexists _, _. split; reflexivity. Qed.

(** A negative size silently moves the counter back and ids are produced twice. *)
Theorem C61_negative_size_refuted :
  exists sizes vss g', heap_calls gen_step (GSeq 0 "id_" 1) sizes = Ok (vss, g') /\ ~ NoDup (concat vss).
Proof.
  exists [1; -1; 1]%Z. eexists _, _. split; [reflexivity|]. cbn.
  intros H. inversion H as [|? ? Hn _]; subst. apply Hn. now left.
Qed.
Print Assumptions C61_negative_size_refuted.

(** C62.  With distinct prefixes, all numbers ever produced are distinct, and each is the
    country code, then one of the prefixes, then exactly [w] digits. *)
Theorem C62_msisdn_unique cc prefixes w fresh sizes vss g' :
  NoDup prefixes -> w <> 0 ->
  heap_calls gen_step (new_msisdn cc prefixes w fresh) sizes = Ok (vss, g') ->
  map (fun l => Z.of_nat (length l)) vss = sizes /\ NoDup (concat vss) /\
  forall v, In v (concat vss) ->
    exists p digits, v = VStr (cc ++ p ++ digits) /\ In p prefixes /\
      String.length digits = w /\ digits_only digits.
Proof. exact (msisdn_unique cc prefixes w fresh sizes vss g'). Qed.
Print Assumptions C62_msisdn_unique.

(** A call succeeds exactly as long as enough numbers remain, and raises ValueError otherwise. *)
Theorem C62_msisdn_exhausted cc prefixes w fresh sizes vss g' n :
  heap_calls gen_step (new_msisdn cc prefixes w fresh) sizes = Ok (vss, g') ->
  (0 <= n)%Z ->
  let remaining := (Z.of_nat (length prefixes) * (10 ^ Z.of_nat w - 1) - zsum sizes)%Z in
  if (remaining <? n)%Z then gen_step g' n = Err ValueError else is_ok (gen_step g' n) = true.
Proof. exact (msisdn_exhausted cc prefixes w fresh sizes vss g' n). Qed.
Print Assumptions C62_msisdn_exhausted.

(** The number made of nines only is never produced (off by one in the size of the pool). *)
Theorem C62_msisdn_never_all_nines cc prefixes w fresh sizes vss g' v :
  w <> 0 ->
  heap_calls gen_step (new_msisdn cc prefixes w fresh) sizes = Ok (vss, g') ->
  In v (concat vss) ->
  forall p, In p prefixes -> NoDup prefixes ->
  v <> VStr (cc ++ p ++ str_of_Z (10 ^ Z.of_nat w - 1)).
Proof. exact (msisdn_never_nines cc prefixes w fresh sizes vss g' v). Qed.
Print Assumptions C62_msisdn_never_all_nines.

Definition one_rng (k : nat) : rng := random_state stream 3.
Example C62_example :
  exists vss g',
    heap_calls gen_step (new_msisdn "32" ["4"; "56"]%string 1 one_rng) [3; 0; 15]%Z = Ok (vss, g') /\
    is_ok (gen_step g' 1) = false /\ length (concat vss) = 18 /\ In (s_ "3245") (concat vss) /\
    NoDup ["4"; "56"]%string.
Proof.
  apply (ok_ex ([], GConst VNA)); [vm_compute; reflexivity|].
  split; [vm_compute; reflexivity|]. split; [vm_compute; reflexivity|].
  split; [|now repeat constructor; cbn; intuition].
  rewrite <- mem_In. vm_compute. reflexivity.
Qed.

(** With a repeated prefix uniqueness is lost. *)
Theorem C62_repeated_prefix_refuted :
  exists cc prefixes w fresh sizes vss g',
    heap_calls gen_step (new_msisdn cc prefixes w fresh) sizes = Ok (vss, g') /\ ~ NoDup (concat vss).
Proof.
  exists "32"%string, ["4"; "4"]%string, 1, one_rng, [18]%Z.
  apply (ok_ex ([], GConst VNA)); [vm_compute; reflexivity|].
  rewrite <- nodupb_NoDup. vm_compute. discriminate.
Qed.
Print Assumptions C62_repeated_prefix_refuted.

(** C65.  One boolean per observation, always True for a probability >= 1 and never for <= 0. *)
Theorem C65_trigger_certain h proba st obs vs d' h' :
  dgen_generate h (DTrigger proba st) obs = Ok (vs, d', h') ->
  h' = h /\ length vs = length obs /\
  forall k o, nth_error obs k = Some o ->
    exists b p, nth_error vs k = Some (VBool b) /\ proba o = Ok p /\
      ((1 <= p)%Q -> b = true) /\ ((p <= 0)%Q -> b = false).
Proof. exact (trigger_certain h proba st obs vs d' h'). Qed.
Print Assumptions C65_trigger_certain.

Example C65_example :
  exists p h', dgen_generate [] (DTrigger as_Q (random_state stream 3)) [vz 0; vz 1; vq (1 # 2); vz (-3)]
               = Ok (p, h') /\ fst p = [VBool false; VBool true; VBool false; VBool false].
Proof. apply (ok_ex ([], DConst VNA, [])); vm_compute; reflexivity. Qed.

(** C66.  With a quantity field, row k gets a list of exactly its quantity of values, and the
    lists put end to end are the stream that one generate(size=total) call gives. *)
Theorem C66_quantities_partition h i n qs vs h' :
  Forall elementwise h ->
  random_values h i n (Some qs) = Ok (vs, h') ->
  exists ns lists flat,
    qs = map vnat ns /\ vs = map VList lists /\
    map (@length val) lists = ns /\ concat lists = flat /\
    gen_generate h i (Z.of_nat (nsum ns)) = Ok (flat, h').
Proof. exact (quantities_partition h i n qs vs h'). Qed.
Print Assumptions C66_quantities_partition.

Example C66_example :
  exists vs h', random_values [GSeq 0 "i" 1] 0 3 (Some [vnat 2; vnat 0; vnat 1]) = Ok (vs, h') /\
    vs = [VList [s_ "i0"; s_ "i1"]; VList []; VList [s_ "i2"]] /\ Forall elementwise [GSeq 0 "i" 1].
Proof. eexists _, _. split; [reflexivity|]. split; [reflexivity|]. now repeat constructor. Qed.

(** C81.  generate(size=n) yields exactly n values, for every generator of the library except
    one transformed by a vectorised function, through any chain of map and flatmap. *)
Theorem C81_generate_size h i size vs h' :
  (0 <= size)%Z -> Forall elementwise h ->
  gen_generate h i size = Ok (vs, h') -> Z.of_nat (length vs) = size.
Proof. exact (heap_generate_length (S i) h i size vs h'). Qed.
Print Assumptions C81_generate_size.

Example C81_example :
  exists vs h', gen_generate [GSeq 0 "i" 1; GConst (vz 2); GBulk 1 0; GMap 2 (MapElem (fun v => Ok v))] 3 2
                = Ok (vs, h') /\
    vs = [VList [s_ "i0"; s_ "i1"]; VList [s_ "i2"; s_ "i3"]].
Proof. eexists _, _. split; reflexivity. Qed.

(** C82.  Pareto values are never below xmin (nor below any natural number <= xmin when
    rounded to integers). *)
Theorem C82_pareto_lower_bound xmin lomax state size vs g' force_int :
  (0 <= xmin)%Qc -> (forall x, 0 <= lomax x)%Qc ->
  gen_step (GPareto xmin force_int lomax state) size = Ok (vs, g') ->
  forall v, In v vs -> exists q, v = VNum q /\
    if force_int then (forall z, (0 <= z)%Z -> (inject_Z z <= xmin)%Q -> (inject_Z z <= q)%Q) else (xmin <= q)%Qc.
Proof. exact (pareto_lower xmin lomax state size vs g' force_int). Qed.
Print Assumptions C82_pareto_lower_bound.

Definition sample_lomax (x : N) : Qc := Q2Qc (Z.of_N (x mod 7) # 2).
Example C82_example :
  exists vs g', gen_step (GPareto (Q2Qc (3 # 1)) true sample_lomax (random_state stream 3)) 3 = Ok (vs, g') /\
    length vs = 3 /\ forall x, (0 <= sample_lomax x)%Qc.
Proof.
  apply (ok_ex ([], GConst VNA)); [vm_compute; reflexivity|]. split; [vm_compute; reflexivity|].
  intros x. unfold Qcle, sample_lomax, Q2Qc, this. rewrite !Qred_correct.
  generalize (x mod 7)%N. intros y. unfold Qle. cbn. lia.
Qed.

(** With force_int a non-integer xmin is not a lower bound. *)
Theorem C82_force_int_refuted :
  exists xmin lomax state vs g' q, (0 <= xmin)%Qc /\ (forall x, 0 <= lomax x)%Qc /\
    gen_step (GPareto xmin true lomax state) 1 = Ok (vs, g') /\ vs = [VNum q] /\ (q < xmin)%Qc.
Proof.
  exists (Q2Qc (1 # 2)), (fun _ => 0%Qc), (random_state stream 3). eexists _, _, _.
  split; [vm_compute; discriminate|]. split; [intros; vm_compute; discriminate|].
  split; [cbn; reflexivity|]. split; [reflexivity|]. reflexivity.
Qed.
Print Assumptions C82_force_int_refuted.

(** C83.  Every seed handed out by seed_provider is in [1, 2^31 - 1). *)
Theorem C83_seed_range st : (1 <= fst (next_seed st) < 2147483647)%N.
Proof. exact (next_seed_range st). Qed.
Print Assumptions C83_seed_range.

(** C84.  map(f) gives the images by f of what the parent would have given, in order, and
    advances the parent as the parent's own generate does. *)
Theorem C84_map_images h i parent f size vs h' :
  nth_error h i = Some (GMap parent (MapElem f)) -> parent < i ->
  (gen_generate h i size = Ok (vs, h') <->
   exists samples, gen_generate h parent size = Ok (samples, h') /\ mapr f samples = Ok vs).
Proof. exact (map_images_parent h i parent f size vs h'). Qed.
Print Assumptions C84_map_images.
