(** What the scenario of tests/scenarios/test_snd.py needs not to raise. *)
From Verif Require Import Base Rng Utils Relationship SpecRelationship Frame Gens Clock SpecClock Attribute SpecAttribute World Story Ops Helpers Circus SpecStory SpecOps
  SpecCircus SpecPopulation SpecLocal SpecSupply SpecLedger SpecRecords SpecSafe SpecCdr Snd SpecSnd.

Definition a_count (v : val) : Prop := exists n : nat, v = vnat n.

Record snd_ready (w : world) (c : snd_names) (distributors dealers agents : list val) : Prop := {
  (* counters and names *)
  ready_to_restock : filled w (n_to_restock c) distributors (fun _ => a_count);
  ready_bulk_size : filled w (n_bulk_size c) dealers (fun _ => a_count);
  ready_agent_name : filled w (n_agent_name c) agents (fun _ _ => True);
  (* the population of the reviews has the four attributes, and they hold one value per review *)
  ready_reviews : exists po, nth_error (w_pops w) (n_reviews c) = Some po /\
    (forall name, In name ["DATE"; "TEXT"; "AGENT_ID"; "AGENT_NAME"]%string <-> In name (map fst (p_attrs po))) /\
    forall name x, In (name, x) (p_attrs po) -> single_valued w x /\ x <> n_to_restock c /\ x <> n_bulk_size c;
  (* dealers buy from distributors *)
  ready_distros : forall i, incl (items w (n_distro_of c) i) distributors;
  ready_plain : forall l, ~ In (VList l) (distributors ++ dealers ++ agents);
  ready_who : choosable w (n_dealers_of c) /\ choosable w (n_distro_of c);
  ready_sims : exists rel, nth_error (w_rels w) (n_dealer_sims c) = Some rel /\ forall f t q, In (f, t, q) (stored rel) -> (0 < q)%Q;
  ready_made : never_refuses (w_gens w) (n_review_ids c) /\ never_refuses (w_gens w) (n_texts c) /\ never_refuses (w_gens w) (n_going c) /\ never_refuses (w_gens w) (n_returning c);
  ready_back : forall a s judge, nth_error (w_stories w) a = Some s -> In (OpBack a judge) (st_ops s) -> gives_numbers w judge;
  ready_holiday : state_in w purchases "on_holiday";
  ready_timers : forall a s, nth_error (w_stories w) a = Some s -> scheduled w s;
  ready_tick : (second <= Clock.c_step (w_clock w))%Z
}.
