(** Specification vocabulary for the logs of tests/scenarios/test_cdr.py. *)
From Verif Require Import Base Rng Utils Relationship SpecRelationship Frame Gens Clock SpecClock Attribute SpecAttribute World Story Ops Helpers Circus SpecStory SpecOps
  SpecCircus SpecPopulation SpecLocal SpecSupply Fs SpecFs SpecLedger SpecRecords SpecSafe Geography Cdr SpecCdr.

(** In the circus [w], [i] has the SIM card [sim], with that number and operator, and is served by that cell. *)
Definition on_the_line (w : world) (c : cdr) (i sim number operator cell : val) : Prop :=
  In sim (items w (k_sims_of c) i) /\ holds w (k_msisdn c) sim number /\ holds w (k_operator c) sim operator /\ holds w (k_cell c) i cell.
(** They have SIM cards of the same operator. *)
Definition common_operator (w : world) (c : cdr) (i j : val) : Prop :=
  exists sim sim' operator, In sim (items w (k_sims_of c) i) /\ In sim' (items w (k_sims_of c) j) /\ holds w (k_operator c) sim operator /\ holds w (k_operator c) sim' operator.
(** The probability with which the cell accepts a call. *)
Definition acceptance (w : world) (c : cdr) (cell : val) (p : Q) : Prop :=
  exists health proba b, holds w (k_health c) cell health /\ nth_error (w_dgens w) (k_flat c) = Some (DTrigger proba b) /\ proba health = Ok p.
(** A moment of the current step of the clock. *)
Definition at_that_time (w : world) (c : cdr) (v : val) : Prop :=
  exists t, v = k_fmt c t /\ (c_date (w_clock w) <= t < c_date (w_clock w) + Clock.c_step (w_clock w))%Z.

(** The record tells of a call or message of [i], who acts in story [a] of the circus [w], to [j]. *)
Record connects (w : world) (c : cdr) (a : nat) (r : record) (i j : val) : Prop := {
  cn_acts : acts_now w a i;
  cn_friend : In j (items w (k_friends c) i);
  cn_a : exists sim, on_the_line w c i sim (r "MSISDN_A"%string) (r "OPERATOR_A"%string) (r "CELL_A"%string);
  cn_b : exists sim, on_the_line w c j sim (r "MSISDN_B"%string) (r "OPERATOR_B"%string) (r "CELL_B"%string);
  cn_common : common_operator w c i j -> r "OPERATOR_A"%string = r "OPERATOR_B"%string;
  cn_type : let both := r "OPERATOR_A"%string = VStr "OPERATOR_0" /\ r "OPERATOR_B"%string = VStr "OPERATOR_0" in
    both /\ r "TYPE"%string = VStr "ONNET" \/ ~ both /\ r "TYPE"%string = VStr "OFFNET";
  cn_status : exists p q, acceptance w c (r "CELL_A"%string) p /\ acceptance w c (r "CELL_B"%string) q /\
    (r "STATUS"%string = VStr "OK" /\ (0 < p)%Q /\ (0 < q)%Q \/ r "STATUS"%string = VStr "DROPPED" /\ ((p < 1)%Q \/ (q < 1)%Q));
  cn_time : at_that_time w c (r "DATETIME"%string)
}.

Definition a_call (w : world) (c : cdr) (r : record) : Prop :=
  (exists i j, connects w c (k_calls c) r i j) /\ can_give (w_gens w) (k_voice c) (r "PRODUCT"%string) /\ can_give (w_gens w) (k_duration c) (r "DURATION"%string) /\
  exists duration, r "DURATION"%string = VNum duration /\ r "VALUE"%string = VNum (duration + duration).
Definition a_message (w : world) (c : cdr) (r : record) : Prop :=
  (exists i j, connects w c (k_sms c) r i j) /\ can_give (w_gens w) (k_text c) (r "PRODUCT"%string) /\ r "VALUE"%string = vz 10.
Definition a_topup (w : world) (c : cdr) (r : record) : Prop :=
  exists sim old value, acts_now w (k_topups c) sim /\ holds w (k_msisdn c) sim (r "CUSTOMER_NUMBER"%string) /\ holds w (k_operator c) sim (r "OPERATOR"%string) /\
    (In (r "AGENT"%string) (items w (k_agents c) sim) \/ items w (k_agents c) sim = [] /\ r "AGENT"%string = VNA) /\
    can_give (w_gens w) (k_recharge c) (r "VALUE"%string) /\ r "VALUE"%string = VNum value /\ holds w (k_main_acct c) sim (VNum old) /\
    r "MAIN_ACCT_OLD"%string = VNum old /\ r "MAIN_ACCT"%string = VNum (old + value) /\ at_that_time w c (r "TIME"%string).

(** ** Accounts *)
Fixpoint total (l : list val) : Qc :=
  match l with
  | [] => 0
  | VNum q :: l => q + total l
  | _ :: l => total l
  end.
(** The sum of the values of the records that show [number] in the column [whose]. *)
Definition sum_of (whose : string) (number : val) (rs : list record) : Qc :=
  total (map (fun r : record => r "VALUE"%string) (filter (fun r : record => val_eqb (r whose) number) rs)).
(** No two SIM cards have the same number. *)
Definition numbers_differ (w : world) (c : cdr) : Prop :=
  forall sim sim' number, holds w (k_msisdn c) sim number -> holds w (k_msisdn c) sim' number -> sim = sim'.

(** The record was logged during the history [hs], right after [past], and what it tells was true then. *)
Definition true_then (tells : world -> cdr -> record -> Prop) (w : world) (c : cdr) (hs past : list happening) (r : record) : Prop :=
  exists a future L1 w1, hs = past ++ HExec a :: future /\ emits w past L1 w1 /\ tells w1 c r.
