(** The network-list operations, as wholes. *)
From Coq Require Import String Ascii List Arith ZArith Bool Lia Permutation.
From Verif Require Import Model.GoStr Model.Errors Model.Version Model.Utf8 Model.Validate Model.Args Model.Path Model.Json Model.GoJson
  Model.Types Model.Conf Model.Invoke Model.Prog Model.Api
  Spec.VersionSpec Spec.NameSpec Spec.EnvSpec Spec.PathSpec Spec.RunSpec Spec.CacheSpec
  Proofs.StrP Proofs.VersionP Proofs.Utf8P Proofs.ValidateP Proofs.PathP Proofs.EnvP Proofs.ConfP Proofs.ProgP Proofs.ApiP.
Import ListNotations.
Open Scope nat_scope.
Open Scope string_scope.

(** *** Versions *)
Lemma triple_cases t u : triple_ge t u \/ triple_gt u t.
Proof.
  destruct t as [[a b] c], u as [[a' b'] c']. unfold triple_ge, triple_gt.
  assert (H : (a > a' \/ a = a' /\ (b > b' \/ b = b' /\ c > c') \/ (a = a' /\ b = b' /\ c = c') \/
     (a' > a \/ a' = a /\ (b' > b \/ b' = b /\ c' > c)))%Z) by lia.
  destruct H as [H|[H|[(-> & -> & ->)|H]]]; auto.
Qed.
Lemma triple_excl t u : triple_ge t u -> ~ triple_gt u t.
Proof.
  destruct t as [[a b] c], u as [[a' b'] c']. unfold triple_ge, triple_gt. intros [H|[= -> -> ->]]; lia.
Qed.
Lemma gte_iff v w t : version_means w t ->
  (gte v w = Ok true <-> at_least v t) /\ (gte v w = Ok false <-> below v t) /\
  ((exists e, gte v w = Err e) <-> ~ well_formed_version v) /\ gte v w <> Panic.
Proof.
  intros W. destruct (gte v w) as [b|e|] eqn:G.
  - assert (V : exists u, version_means v u).
    { destruct (parse_version v) as [u|e|] eqn:P.
      - exists u. now apply parse_version_spec.
      - assert (X : exists e, gte v w = Err e) by (apply gte_error; left; apply parse_version_rejects; eauto). destruct X; congruence.
      - now destruct (parse_version_no_panic v). }
    destruct V as [u V]. destruct (gte_ok _ _ _ _ V W) as (r & E & I). rewrite G in E. injection E as ->.
    assert (U : forall u', version_means v u' -> u' = u).
    { intros u' V'. apply parse_version_spec in V'. apply parse_version_spec in V. congruence. }
    split; [|split; [|split]].
    + split; [intros [= ->]; exists u; split; [exact V|now apply I]|]. intros (u' & V' & L). rewrite (U _ V') in L. now rewrite (proj2 I L).
    + split.
      * intros [= ->]. exists u. split; [exact V|]. destruct (triple_cases u t) as [L|L]; [|exact L]. now apply I in L.
      * intros (u' & V' & L). rewrite (U _ V') in L. destruct r; [|reflexivity]. exfalso. eapply triple_excl; [now apply I|exact L].
    + split; [intros (e & X); discriminate|]. intros X. destruct X. now exists u.
    + discriminate.
  - assert (X : exists e, gte v w = Err e) by eauto. apply gte_error in X. destruct X as [X|X]; [|destruct X; now exists t].
    split; [|split; [|split]].
    + split; [discriminate|]. intros (u & V & _). destruct X. now exists u.
    + split; [discriminate|]. intros (u & V & _). destruct X. now exists u.
    + split; [auto|eauto].
    + discriminate.
  - exfalso. unfold gte in G. pose proof (parse_version_no_panic v) as P1. pose proof (parse_version_no_panic w) as P2.
    destruct (parse_version v) as [[[? ?] ?]| |]; [|discriminate|now destruct P1]. destruct (parse_version w) as [[[? ?] ?]| |]; [discriminate|discriminate|now destruct P2].
Qed.
Lemma means_040 : version_means "0.4.0" (0, 4, 0)%Z. Proof. apply parse_version_spec. reflexivity. Qed.
Lemma means_110 : version_means "1.1.0" (1, 1, 0)%Z. Proof. apply parse_version_spec. reflexivity. Qed.
Lemma version_cases v t : at_least v t \/ below v t \/ ~ well_formed_version v.
Proof.
  destruct (parse_version v) as [u|e|] eqn:P.
  - apply parse_version_spec in P. destruct (triple_cases u t); [left|right; left]; now exists u.
  - right. right. apply parse_version_rejects. eauto.
  - now destruct (parse_version_no_panic v).
Qed.

(** *** ADD *)
Lemma add_network_list_inv fl c l rt w tr w' r : runs fl (add_network_list c l rt) w tr w' r ->
  exists tr1 results r1,
  runs fl (add_loop c (nl_name l) (nl_version l) (nl_plugins l) None rt) w tr1 w r1 /\ changed tr1 = [] /\
  (forall i x, nth_error (calls tr1) i = Some x -> names_ok (nl_name l) rt /\
     exists net, nth_error (nl_plugins l) i = Some net /\
       request c "ADD" (nl_name l) (nl_version l) rt net (before None results i) tr x) /\
  (forall i v, nth_error results i = Some v <-> exists x, nth_error (calls tr1) i = Some x /\ yields x v) /\
  List.length results <= List.length (calls tr1) <= S (List.length results) /\
  calls tr = calls tr1 /\
  ((List.length results = List.length (nl_plugins l) /\ List.length (calls tr1) = List.length (nl_plugins l) /\
    exists tr2 r2, tr = (tr1 ++ tr2)%list /\ runs fl (cache_add c (last_or None results) (nl_bytes l) (nl_name l) rt) w tr2 w' r2 /\
      match r2 with Ok _ => r = Ok (last_or None results)
      | Err e => exists m, r = Err (EWrap m e) | Panic => r = Panic end) \/
   (tr = tr1 /\ w' = w /\ List.length results < List.length (nl_plugins l) /\ (forall a, r <> Ok a) /\
    forall x e, nth_error (calls tr1) (List.length results) = Some x -> call_answer x = Err e -> exists m, r = Err (EWrap m e))).
Proof.
  intros H. unfold add_network_list in H. apply runs_rbindp in H.
  assert (K : (exists tr1 a tr2 r2, runs fl (add_loop c (nl_name l) (nl_version l) (nl_plugins l) None rt) w tr1 w (Ok a) /\
      runs fl (cache_add c a (nl_bytes l) (nl_name l) rt) w tr2 w' r2 /\ tr = (tr1 ++ tr2)%list /\
      match r2 with Ok _ => r = Ok a | Err e => exists m, r = Err (EWrap m e) | Panic => r = Panic end) \/
    (w' = w /\ (forall a, r <> Ok a) /\ runs fl (add_loop c (nl_name l) (nl_version l) (nl_plugins l) None rt) w tr w r)).
  { destruct H as [(tr1 & w1 & a & tr2 & R1 & R2 & ->)|[(e & -> & R)|(-> & R)]].
    - destruct (add_loop_inv _ _ _ _ _ _ _ _ _ _ _ R1) as (-> & _). left. exists tr1, a, tr2. apply runs_rbindp in R2.
      destruct R2 as [(t1 & w1 & [] & t2 & E1 & E2 & ->)|[(e & -> & E)|(-> & E)]].
      + apply runs_pwrap in E1. destruct E1 as (r2 & E1 & X). destruct r2; try discriminate. apply runs_lift in E2. destruct E2 as (-> & -> & ->).
        exists (Ok a0). rewrite app_nil_r. auto.
      + apply runs_pwrap in E. destruct E as (r2 & E & X). destruct r2; try discriminate. injection X as ->. eauto 8.
      + apply runs_pwrap in E. destruct E as (r2 & E & X). destruct r2; try discriminate. eauto 8.
    - right. destruct (add_loop_inv _ _ _ _ _ _ _ _ _ _ _ R) as (-> & _). split; [reflexivity|]. split; [discriminate|exact R].
    - right. destruct (add_loop_inv _ _ _ _ _ _ _ _ _ _ _ R) as (-> & _). split; [reflexivity|]. split; [discriminate|exact R]. }
  destruct K as [(tr1 & a & tr2 & r2 & R1 & R2 & -> & E)|(-> & N & R)].
  - destruct (add_loop_inv _ _ _ _ _ _ _ _ _ _ _ R1) as (_ & C1 & results & P1 & P2 & P3 & P4).
    exists tr1, results, (Ok a). split; [exact R1|]. split; [exact C1|]. split.
    { intros i x I. destruct (P1 i x I) as (NO & net & E1 & Q). split; [exact NO|]. exists net. split; [exact E1|now apply request_app_l]. }
    split; [exact P2|]. split; [exact P3|]. destruct (cache_add_inv _ _ _ _ _ _ _ _ _ _ R2) as (C2 & _).
    rewrite calls_app, C2, app_nil_r. split; [reflexivity|]. left.
    destruct P4 as [(L1 & L2 & [= ->])|(_ & X & _)]; [|now destruct (X a)]. split; [exact L1|]. split; [exact L2|]. eauto.
  - destruct (add_loop_inv _ _ _ _ _ _ _ _ _ _ _ R) as (_ & C1 & results & P1 & P2 & P3 & P4).
    exists tr, results, r. split; [exact R|]. split; [exact C1|]. split; [exact P1|]. split; [exact P2|]. split; [exact P3|].
    split; [reflexivity|]. right. destruct P4 as [(_ & _ & ->)|(L & _ & F)]; [now destruct (N (last_or None results))|]. auto.
Qed.

(** *** DEL *)
Definition del_prev (r : res (option result)) : option result := match r with Ok x => x | _ => None end.
Lemma del_network_list_inv fl c l rt w tr w' r : runs fl (del_network_list c l rt) w tr w' r ->
  (~ well_formed_version (nl_version l) /\ tr = [] /\ w' = w /\ exists e, r = Err e) \/
  (at_least (nl_version l) (0, 4, 0)%Z /\ cached_in c (nl_name l) (nl_version l) rt w = Panic /\ r = Panic /\ w' = w /\ changed tr = [] /\ calls tr = []) \/
  (exists cached tr0 trp w1 tr1 trd r1,
    tr = (tr0 ++ trp ++ tr1 ++ trd)%list /\ calls tr0 = [] /\ changed tr0 = [] /\
    (* the cached result *)
    (at_least (nl_version l) (0, 4, 0)%Z /\
       ((exists x, cached = Ok x /\ trp = [] /\ w1 = w) \/ (exists e, cached = Err e /\ runs fl (cache_del c (nl_name l) rt) w trp w1 tt)) /\
       (cached = cached_in c (nl_name l) (nl_version l) rt w \/ (fl = true /\ named (nl_name l) rt /\ cached = Ok None)) \/
     below (nl_version l) (0, 4, 0)%Z /\ cached = Ok None /\ trp = [] /\ w1 = w) /\
    runs fl (del_loop c (nl_name l) (nl_version l) (rev (nl_plugins l)) (del_prev cached) rt) w1 tr1 w1 r1 /\ r = r1 /\
    (r1 = Ok tt /\ runs fl (cache_del c (nl_name l) rt) w1 trd w' tt \/ r1 <> Ok tt /\ trd = [] /\ w' = w1)).
Proof.
  intros H. unfold del_network_list in H. apply runs_lift_then in H.
  destruct (gte_iff (nl_version l) "0.4.0" _ means_040) as (GT & GF & GE & GP).
  destruct (gte (nl_version l) "0.4.0") as [g|e|] eqn:G; [|left|now destruct GP].
  2:{ destruct H as (-> & -> & ->). split; [apply GE; eauto|]. eauto. }
  right.
  assert (REST : forall cached w1 trx, runs fl (rbindp (del_loop c (nl_name l) (nl_version l) (rev (nl_plugins l)) cached rt)
      (fun _ => bind (cache_del c (nl_name l) rt) (fun _ => Ret (Ok tt)))) w1 trx w' r ->
      exists tr1 trd, trx = (tr1 ++ trd)%list /\
        runs fl (del_loop c (nl_name l) (nl_version l) (rev (nl_plugins l)) cached rt) w1 tr1 w1 r /\
        (r = Ok tt /\ runs fl (cache_del c (nl_name l) rt) w1 trd w' tt \/ r <> Ok tt /\ trd = [] /\ w' = w1)).
  { intros cached w1 trx R. apply runs_rbindp in R. destruct R as [(tr1 & w2 & [] & tr2 & R1 & R2 & ->)|[(e & -> & R)|(-> & R)]].
    - destruct (del_loop_inv _ _ _ _ _ _ _ _ _ _ _ R1) as (-> & _). apply runs_bind in R2. destruct R2 as (t1 & w2 & [] & t2 & E1 & E2 & ->).
      apply runs_ret in E2. destruct E2 as (-> & -> & ->). rewrite app_nil_r. exists tr1, t1. auto.
    - destruct (del_loop_inv _ _ _ _ _ _ _ _ _ _ _ R) as (-> & _). exists trx, []. rewrite app_nil_r. split; [reflexivity|]. split; [exact R|].
      right. split; [discriminate|auto].
    - destruct (del_loop_inv _ _ _ _ _ _ _ _ _ _ _ R) as (-> & _). exists trx, []. rewrite app_nil_r. split; [reflexivity|]. split; [exact R|].
      right. split; [discriminate|auto]. }
  destruct g; cbn beta iota in H.
  - assert (AL : at_least (nl_version l) (0, 4, 0)%Z) by now apply GT.
    apply runs_rbindp in H.
    assert (PRE : forall t wp rp, runs fl (bind (get_cached_result c (nl_name l) (nl_version l) rt) (fun r0 => match r0 with
         | Ok x => Ret (Ok x) | Err _ => bind (cache_del c (nl_name l) rt) (fun _ => Ret (Ok None)) | Panic => Ret Panic end)) w t wp rp ->
       exists cached tr0 trp, t = (tr0 ++ trp)%list /\ calls tr0 = [] /\ changed tr0 = [] /\
        (cached = cached_in c (nl_name l) (nl_version l) rt w \/ (fl = true /\ named (nl_name l) rt /\ cached = Ok None)) /\
        match cached with
        | Ok x => trp = [] /\ wp = w /\ rp = Ok x
        | Err _ => runs fl (cache_del c (nl_name l) rt) w trp wp tt /\ rp = Ok None
        | Panic => trp = [] /\ wp = w /\ rp = Panic end).
    { intros t wp rp R. apply runs_bind in R. destruct R as (t1 & w1 & cached & t2 & R1 & R2 & ->).
      destruct (get_cached_inv _ _ _ _ _ _ _ _ _ R1) as (-> & C1 & C2 & C3). exists cached, t1, t2.
      split; [reflexivity|]. split; [exact C2|]. split; [exact C1|]. split; [exact C3|]. destruct cached as [x|e|].
      - apply runs_ret in R2. destruct R2 as (-> & -> & ->). auto.
      - apply runs_bind in R2. destruct R2 as (t3 & w2 & [] & t4 & R3 & R4 & ->). apply runs_ret in R4. destruct R4 as (-> & -> & ->). rewrite app_nil_r. auto.
      - apply runs_ret in R2. destruct R2 as (-> & -> & ->). auto. }
    destruct H as [(t1 & w1 & prev & t2 & R1 & R2 & ->)|[(e & -> & R)|(-> & R)]].
    + apply PRE in R1. destruct R1 as (cached & tr0 & trp & -> & C1 & C2 & C3 & C4). apply REST in R2. destruct R2 as (tr1 & trd & -> & D & E).
      assert (PE : prev = del_prev cached) by (destruct cached as [x|e|]; cbn; [destruct C4 as (_ & _ & C4)|destruct C4 as (_ & C4)|destruct C4 as (_ & _ & C4)]; congruence). subst prev.
      right. exists cached, tr0, trp, w1, tr1, trd, r. split; [now rewrite <- app_assoc|]. split; [exact C1|]. split; [exact C2|].
      split; [|auto]. left. split; [exact AL|]. split; [|exact C3]. destruct cached as [x|e|].
      * left. exists x. intuition.
      * right. exists e. intuition.
      * destruct C4 as (_ & _ & X). discriminate.
    + apply PRE in R. destruct R as (cached & tr0 & trp & -> & C1 & C2 & C3 & C4). destruct cached; intuition discriminate.
    + apply PRE in R. destruct R as (cached & tr0 & trp & -> & C1 & C2 & C3 & C4). destruct cached as [x|e|]; [intuition discriminate|intuition discriminate|].
      left. destruct C4 as (-> & -> & _). split; [exact AL|]. split; [destruct C3 as [X|(_ & _ & X)]; [now symmetry|discriminate]|].
      rewrite app_nil_r. auto.
  - assert (BL : below (nl_version l) (0, 4, 0)%Z) by now apply GF.
    apply runs_lift_then in H. apply REST in H. destruct H as (tr1 & trd & -> & D & E). right.
    exists (Ok None), [], [], w, tr1, trd, r. auto 12.
Qed.

Lemma cached_in_cases c name ver rt w : safe_entry c name ver rt w -> cached_in c name ver rt w <> Panic.
Proof.
  intros S. destruct (cache_path_cases c name rt) as [[N _]|[N _]].
  - rewrite cached_in_named by exact N. exact S.
  - destruct (cached_in_unnamed c name ver rt w N) as [e ->]. discriminate.
Qed.
Lemma cached_in_provides c name ver rt w : safe_entry c name ver rt w -> cache_provides c name ver rt w (del_prev (cached_in c name ver rt w)).
Proof.
  intros S. destruct (cache_path_cases c name rt) as [[N _]|[N _]].
  - rewrite cached_in_named by exact N. unfold cache_provides, safe_entry in *. destruct (reads_result ver _) as [x|e|]; cbn.
    + left. auto.
    + right. eauto.
    + now destruct S.
  - destruct (cached_in_unnamed c name ver rt w N) as [e ->]. right. auto.
Qed.

Lemma del_summary fl c l rt w tr w' r : runs fl (del_network_list c l rt) w tr w' r ->
  well_formed_version (nl_version l) ->
  (at_least (nl_version l) (0, 4, 0)%Z -> safe_entry c (nl_name l) (nl_version l) rt w) ->
  exists prev,
    asked_in_order c "DEL" (nl_name l) (nl_version l) rt (rev (nl_plugins l)) prev tr /\
    (r = Ok tt <-> all_succeeded (List.length (nl_plugins l)) tr) /\
    (forall x e, In x (calls tr) -> call_answer x = Err e -> exists m, r = Err (EWrap m e)) /\
    (below (nl_version l) (0, 4, 0)%Z -> prev = None) /\
    (at_least (nl_version l) (0, 4, 0)%Z ->
       cache_provides c (nl_name l) (nl_version l) rt w prev \/ (fl = true /\ prev = None)).
Proof.
  intros H WF SE. destruct (del_network_list_inv _ _ _ _ _ _ _ _ H) as [(N & _)|[(AL & P & _)|D]].
  - now destruct N.
  - exfalso. exact (cached_in_cases _ _ _ _ _ (SE AL) P).
  - destruct D as (cached & tr0 & trp & w1 & tr1 & trd & r1 & -> & C0 & _ & K & R & -> & FIN).
    destruct (del_loop_inv _ _ _ _ _ _ _ _ _ _ _ R) as (_ & _ & A & B & E).
    assert (CP : calls trp = []).
    { destruct K as [(_ & [(x & _ & -> & _)|(e & _ & K)] & _)|(_ & _ & -> & _)]; try reflexivity. now apply cache_del_inv in K. }
    assert (CD : calls trd = []).
    { destruct FIN as [(_ & K2)|(_ & -> & _)]; [now apply cache_del_inv in K2|reflexivity]. }
    exists (del_prev cached).
    assert (CC : calls (tr0 ++ trp ++ tr1 ++ trd)%list = calls tr1).
    { rewrite !calls_app, C0, CP, CD. cbn. now rewrite app_nil_r. }
    split; [|split; [|split; [|split]]].
    + destruct A as (A1 & A2). split; rewrite CC.
      * intros i x I. destruct (A1 i x I) as (net & E1 & Q). exists net. split; [exact E1|].
        apply request_app_r, request_app_r, request_app_l. exact Q.
      * exact A2.
    + rewrite B, rev_length. unfold all_succeeded. now rewrite CC.
    + rewrite CC. exact E.
    + intros BL. destruct K as [(AL & _)|(_ & -> & _)]; [|reflexivity]. exfalso.
      destruct AL as (u & V & G), BL as (u' & V' & G'). apply parse_version_spec in V. apply parse_version_spec in V'. rewrite V in V'. injection V' as <-.
      exact (triple_excl _ _ G G').
    + intros AL. destruct K as [(_ & _ & K)|(BL & _)].
      * destruct K as [->|(F & _ & ->)]; [left; now apply cached_in_provides, SE|right; auto].
      * exfalso. destruct AL as (u & V & G), BL as (u' & V' & G'). apply parse_version_spec in V. apply parse_version_spec in V'. rewrite V in V'. injection V' as <-.
        exact (triple_excl _ _ G G').
Qed.
Lemma del_world fl c l rt w tr w' r : runs fl (del_network_list c l rt) w tr w' r ->
  (forall p, In p (changed tr) -> named (nl_name l) rt /\ p = entry_path c (nl_name l) rt) /\
  (w' = w \/ (named (nl_name l) rt /\ w' = sdel (entry_path c (nl_name l) rt) w)) /\
  (fl = false -> r = Ok tt -> named (nl_name l) rt -> sget (entry_path c (nl_name l) rt) w' = None) /\
  (r <> Ok tt -> (below (nl_version l) (0, 4, 0)%Z \/ exists x, reads_result (nl_version l) (sget (entry_path c (nl_name l) rt) w) = Ok x) ->
     (named (nl_name l) rt) -> w' = w).
Proof.
  intros H. destruct (del_network_list_inv _ _ _ _ _ _ _ _ H) as [(N & -> & -> & e & ->)|[(AL & P & -> & -> & C & _)|D]].
  - split; [intros p []|]. split; [now left|]. split; [discriminate|reflexivity].
  - rewrite C. split; [intros p []|]. split; [now left|]. split; [discriminate|reflexivity].
  - destruct D as (cached & tr0 & trp & w1 & tr1 & trd & r1 & -> & _ & C0 & K & R & -> & FIN).
    destruct (del_loop_inv _ _ _ _ _ _ _ _ _ _ _ R) as (_ & C1 & _).
    assert (CP : (forall p, In p (changed trp) -> named (nl_name l) rt /\ p = entry_path c (nl_name l) rt) /\
       (w1 = w \/ (named (nl_name l) rt /\ w1 = sdel (entry_path c (nl_name l) rt) w))).
    { destruct K as [(_ & [(x & _ & -> & ->)|(e & _ & K)] & _)|(_ & _ & -> & ->)].
      - split; [intros p []|now left].
      - apply cache_del_inv in K. destruct K as (_ & K1 & K2 & _). auto.
      - split; [intros p []|now left]. }
    destruct CP as (CP & WP).
    assert (CD : (forall p, In p (changed trd) -> named (nl_name l) rt /\ p = entry_path c (nl_name l) rt) /\
       (w' = w1 \/ (named (nl_name l) rt /\ w' = sdel (entry_path c (nl_name l) rt) w1)) /\
       (fl = false -> r1 = Ok tt -> named (nl_name l) rt -> sget (entry_path c (nl_name l) rt) w' = None)).
    { destruct FIN as [(_ & K2)|(X & -> & ->)].
      - apply cache_del_inv in K2. destruct K2 as (_ & K2 & K3 & K4). auto.
      - split; [intros p []|]. split; [now left|]. intros _ Y. now destruct X. }
    destruct CD as (CD & WD & DD). split.
    { intros p. rewrite !changed_app, C0, C1. cbn. rewrite in_app_iff. intros [I|I]; [now apply CP|now apply CD]. }
    split; [|split; [exact DD|]].
    + destruct WP as [->|(N & ->)], WD as [->|(N' & ->)]; auto. right. split; [exact N|].
      apply sdel_absent. rewrite sget_sdel. now rewrite String.eqb_refl.
    + intros X Y N. destruct FIN as [(Z & _)|(_ & _ & ->)]; [now destruct X|].
      destruct K as [(AL & K & K')|(_ & _ & _ & ->)]; [|reflexivity].
      destruct K as [(x & _ & _ & ->)|(e & -> & _)]; [reflexivity|].
      destruct K' as [K'|(_ & _ & K')]; [|discriminate]. exfalso.
      destruct Y as [BL|[x Y]].
      * destruct AL as (u & V & G), BL as (u' & V' & G'). apply parse_version_spec in V. apply parse_version_spec in V'. rewrite V in V'. injection V' as <-.
        exact (triple_excl _ _ G G').
      * rewrite cached_in_named in K' by exact N. congruence.
Qed.

(** *** CHECK *)
Lemma check_summary fl c l rt w tr w' r : runs fl (check_network_list c l rt) w tr w' r ->
  w' = w /\ changed tr = [] /\
  ((~ well_formed_version (nl_version l) /\ calls tr = [] /\ exists e, r = Err e) \/
   (below (nl_version l) (0, 4, 0)%Z /\ calls tr = [] /\ exists e, r = Err e) \/
   (at_least (nl_version l) (0, 4, 0)%Z /\ nl_disable_check l = true /\ calls tr = [] /\ r = Ok tt) \/
   (at_least (nl_version l) (0, 4, 0)%Z /\ nl_disable_check l = false /\
     exists cached, (cached = cached_in c (nl_name l) (nl_version l) rt w \/ (fl = true /\ named (nl_name l) rt /\ cached = Ok None)) /\
      match cached with
      | Ok prev => asked_in_order c "CHECK" (nl_name l) (nl_version l) rt (nl_plugins l) prev tr /\
         (r = Ok tt <-> all_succeeded (List.length (nl_plugins l)) tr) /\
         (forall x e, In x (calls tr) -> call_answer x = Err e -> r = Err e)
      | Err e => calls tr = [] /\ exists m, r = Err (EWrap m e)
      | Panic => calls tr = [] /\ r = Panic
      end)).
Proof.
  intros H. unfold check_network_list in H. apply runs_lift_then in H.
  destruct (gte_iff (nl_version l) "0.4.0" _ means_040) as (GT & GF & GE & GP).
  destruct (gte (nl_version l) "0.4.0") as [g|e|] eqn:G; [| |now destruct GP].
  2:{ destruct H as (-> & -> & ->). split; [reflexivity|]. split; [reflexivity|]. left. split; [apply GE; eauto|]. eauto. }
  destruct g; cbn [negb] in H.
  2:{ apply runs_ret in H. destruct H as (-> & -> & ->). split; [reflexivity|]. split; [reflexivity|]. right. left. split; [now apply GF|eauto]. }
  assert (AL : at_least (nl_version l) (0, 4, 0)%Z) by now apply GT.
  destruct (nl_disable_check l) eqn:DC.
  { apply runs_ret in H. destruct H as (-> & -> & ->). split; [reflexivity|]. split; [reflexivity|]. right. right. left. auto. }
  apply runs_rbindp in H. destruct H as [(t1 & w1 & prev & t2 & R1 & R2 & ->)|[(e & -> & R)|(-> & R)]].
  - apply runs_pwrap in R1. destruct R1 as (cached & R1 & E). destruct cached as [x|e|]; try discriminate. injection E as <-.
    apply get_cached_inv in R1. destruct R1 as (-> & C1 & C2 & C3). apply check_loop_inv in R2. destruct R2 as (-> & D1 & D2 & D3 & D4).
    split; [reflexivity|]. rewrite changed_app, C1, D1. split; [reflexivity|]. right. right. right. split; [exact AL|]. split; [reflexivity|].
    exists (Ok prev). split; [exact C3|]. assert (CC : calls (t1 ++ t2)%list = calls t2) by now rewrite calls_app, C2. split; [|split].
    + destruct D2 as (D2 & D2'). split; rewrite CC; [|exact D2']. intros i x I. destruct (D2 i x I) as (net & E1 & Q). exists net. split; [exact E1|].
      now apply request_app_r.
    + unfold all_succeeded. rewrite CC. exact D3.
    + rewrite CC. exact D4.
  - apply runs_pwrap in R. destruct R as (cached & R & E). destruct cached as [x|e0|]; try discriminate. injection E as ->.
    apply get_cached_inv in R. destruct R as (-> & C1 & C2 & C3). split; [reflexivity|]. split; [exact C1|]. right. right. right.
    split; [exact AL|]. split; [reflexivity|]. exists (Err e0). split; [exact C3|]. eauto.
  - apply runs_pwrap in R. destruct R as (cached & R & E). destruct cached as [x|e0|]; try discriminate.
    apply get_cached_inv in R. destruct R as (-> & C1 & C2 & C3). split; [reflexivity|]. split; [exact C1|]. right. right. right.
    split; [exact AL|]. split; [reflexivity|]. exists Panic. split; [exact C3|]. auto.
Qed.

(** *** Requests with only a verb *)
Lemma plain_weaken c verb conf (a b d : trace) x : plain_request c verb conf b x -> plain_request c verb conf (a ++ b ++ d)%list x.
Proof. intros (P & F & R). split; [exact P|]. split; [|exact R]. apply in_or_app. right. apply in_or_app. now left. Qed.
Lemma plain_app_l c verb conf (a b : trace) x : plain_request c verb conf a x -> plain_request c verb conf (a ++ b)%list x.
Proof. intros H. apply (plain_weaken c verb conf [] a b x H). Qed.
Lemma plain_app_r c verb conf (a b : trace) x : plain_request c verb conf b x -> plain_request c verb conf (a ++ b)%list x.
Proof. intros H. pose proof (plain_weaken c verb conf a b [] x H) as K. now rewrite app_nil_r in K. Qed.
Lemma verb_only_inv fl verb c conf w tr w' r : runs fl (verb_only verb c conf) w tr w' r ->
  w' = w /\ changed tr = [] /\
  ((calls tr = [] /\ exists e, r = Err e /\ In (OpFind (pc_type (pg_conf conf)) (c_path c), RStr (Err e)) tr) \/
   (exists x, calls tr = [x] /\ plain_request c verb conf tr x /\ is_panic (call_answer x) = false /\
      r = rmap (fun _ => tt) (call_answer x))).
Proof.
  unfold verb_only. rewrite runs_rbindp. intros [(tr1 & w1 & path & tr2 & R1 & R2 & ->)|[(e & -> & R)|(-> & R)]].
  - apply runs_find in R1. destruct R1 as (-> & -> & _).
    unfold exec_plugin_without_result in R2. apply runs_rbindp in R2.
    assert (G : exists a env, tr2 = [(OpEnviron, REnv env); (OpExec path (pg_bytes conf) (as_env env (api_args c verb runtime_conf_zero)), RStr a)] /\
        w' = w /\ is_panic a = false /\ r = rmap (fun _ => tt) a).
    { destruct R2 as [(t1 & w1 & a & t2 & E1 & E2 & ->)|[(e & -> & E)|(-> & E)]].
        - apply runs_exec_with_args in E1. destruct E1 as (env & -> & -> & _). apply runs_lift in E2. destruct E2 as (-> & -> & ->).
          rewrite app_nil_r. exists (Ok a), env. auto.
        - apply runs_exec_with_args in E. destruct E as (env & -> & -> & _). exists (Err e), env. auto.
        - apply runs_exec_with_args in E. destruct E as (env & -> & -> & X). discriminate. }
    destruct G as (a & env & -> & -> & NP & ->). split; [reflexivity|]. split; [reflexivity|]. right.
    eexists. split; [reflexivity|]. split; [|split; [exact NP|reflexivity]].
    destruct (protocol_env_as_env c verb runtime_conf_zero env) as (E1 & _ & _ & _ & _ & E2).
    split; [split; assumption|]. split; [now left|reflexivity].
  - apply runs_find in R. destruct R as (-> & -> & _). split; [reflexivity|]. split; [reflexivity|]. left. split; [reflexivity|]. exists e. split; [reflexivity|now left].
  - apply runs_find in R. destruct R as (-> & -> & X). discriminate.
Qed.

Lemma status_loop_inv fl c inject : forall nets w tr w' r, runs fl (status_loop c inject nets) w tr w' r ->
  w' = w /\ changed tr = [] /\
  (forall i x, nth_error (calls tr) i = Some x -> exists net conf, nth_error nets i = Some net /\ inject_conf net inject = Ok conf /\
     plain_request c "STATUS" conf tr x) /\
  (forall i x, nth_error (calls tr) i = Some x -> S i < List.length (calls tr) -> succeeded x) /\
  (r = Ok tt <-> all_succeeded (List.length nets) tr) /\
  (forall x e, In x (calls tr) -> call_answer x = Err e -> r = Err e).
Proof.
  induction nets as [|net nets IH]; intros w tr w' r H; cbn [status_loop] in H.
  - apply runs_ret in H. destruct H as (-> & -> & ->). split; [reflexivity|]. split; [reflexivity|].
    split; [intros [|i] x E; discriminate|]. split; [intros [|i] x E; discriminate|].
    split; [split; [split; [reflexivity|constructor]|reflexivity]|intros x e []].
  - apply runs_lift_then in H. destruct (inject_conf net inject) as [conf|e|] eqn:IC; cbn [rwrap] in H.
    2:{ destruct H as (-> & -> & ->). split; [reflexivity|]. split; [reflexivity|].
        split; [intros [|i] x E; discriminate|]. split; [intros [|i] x E; discriminate|].
        split; [split; [discriminate|intros (X & _); discriminate]|intros x e0 []]. }
    2:{ destruct H as (-> & -> & ->). split; [reflexivity|]. split; [reflexivity|].
        split; [intros [|i] x E; discriminate|]. split; [intros [|i] x E; discriminate|].
        split; [split; [discriminate|intros (X & _); discriminate]|intros x e0 []]. }
    assert (K : (exists tr1 w1 tr2, runs fl (verb_only "STATUS" c conf) w tr1 w1 (Ok tt) /\ runs fl (status_loop c inject nets) w1 tr2 w' r /\ tr = (tr1 ++ tr2)%list) \/
       (runs fl (verb_only "STATUS" c conf) w tr w' r /\ r <> Ok tt)).
    { apply runs_rbindp in H. destruct H as [(tr1 & w1 & [] & tr2 & R1 & R2 & ->)|[(e & -> & R)|(-> & R)]].
      - left. eauto 7.
      - right. split; [exact R|discriminate].
      - right. split; [exact R|discriminate]. }
    destruct K as [(tr1 & w1 & tr2 & R1 & R2 & ->)|(R & N)].
    + apply verb_only_inv in R1. destruct R1 as (-> & C1 & [(_ & e & X & _)|(x & C & Q & NP & E)]); [discriminate|].
      symmetry in E. apply rmap_tt_ok in E. assert (S : succeeded x) by exact E.
      apply IH in R2. destruct R2 as (-> & C2 & A1 & A2 & B & D). split; [reflexivity|]. rewrite changed_app, C1, C2. split; [reflexivity|].
      rewrite calls_app, C. cbn [app]. split; [|split; [|split]].
      * intros [|i] y Y.
        -- injection Y as <-. exists net, conf. split; [reflexivity|]. split; [exact IC|now apply plain_app_l].
        -- destruct (A1 i y Y) as (n & cf & E1 & E2 & E3). exists n, cf. split; [exact E1|]. split; [exact E2|now apply plain_app_r].
      * intros [|i] y Y L; [injection Y as <-; exact S|]. apply (A2 i y Y). cbn [List.length] in L. lia.
      * cbn [List.length]. rewrite B. now apply all_succeeded_cons with (x := x).
      * intros y e [<-|I] CA; [|eapply D; eassumption]. destruct E as [o E]. congruence.
    + apply verb_only_inv in R. destruct R as (-> & C1 & [(C & e & -> & _)|(x & C & Q & NP & E)]); (split; [reflexivity|]); (split; [exact C1|]); rewrite C.
      * split; [intros [|i] x E; discriminate|]. split; [intros [|i] x E; discriminate|].
        split; [split; [discriminate|]|intros x e0 []]. unfold all_succeeded. rewrite C. intros (X & _). discriminate.
      * split; [|split; [|split]].
        -- intros [|i] y Y; [|destruct i; discriminate]. injection Y as <-. exists net, conf. auto.
        -- intros [|i] y Y L; [cbn in L; lia|destruct i; discriminate].
        -- split; [intros X; now destruct N|]. unfold all_succeeded. rewrite C. intros (_ & F). inversion F as [|? ? [o CA] _]. subst.
           destruct N. apply rmap_tt_ok. eauto.
        -- intros y e [<-|[]] CA. rewrite E, CA. reflexivity.
Qed.
Lemma gte_or_false_iff v : (gte_or_false v "1.1.0" = true <-> at_least v (1, 1, 0)%Z).
Proof.
  unfold gte_or_false. destruct (gte_iff v "1.1.0" _ means_110) as (GT & _). rewrite <- GT.
  destruct (gte v "1.1.0") as [[|]|e|]; split; congruence.
Qed.

(** *** GC: the plugins *)
Definition end_answer (t : turn_end) : res string := match t with Missing e => Err e | Ran x => call_answer x end.
Lemma verb_only_turn fl verb c conf w tr w' r : runs fl (verb_only verb c conf) w tr w' r ->
  w' = w /\ changed tr = [] /\ exists t, is_panic (end_answer t) = false /\ r = rmap (fun _ => tt) (end_answer t) /\
    turn c (pc_type (pg_conf conf)) (fun x => plain_env c verb (call_env x) /\ call_stdin x = pg_bytes conf) tr t.
Proof.
  unfold verb_only. rewrite runs_rbindp. intros [(tr1 & w1 & path & tr2 & R1 & R2 & ->)|[(e & -> & R)|(-> & R)]].
  - apply runs_find in R1. destruct R1 as (-> & -> & _).
    unfold exec_plugin_without_result in R2. apply runs_rbindp in R2.
    assert (G : exists a env, tr2 = [(OpEnviron, REnv env); (OpExec path (pg_bytes conf) (as_env env (api_args c verb runtime_conf_zero)), RStr a)] /\
        w' = w /\ is_panic a = false /\ r = rmap (fun _ => tt) a).
    { destruct R2 as [(t1 & w1 & a & t2 & E1 & E2 & ->)|[(e & -> & E)|(-> & E)]].
        - apply runs_exec_with_args in E1. destruct E1 as (env & -> & -> & _). apply runs_lift in E2. destruct E2 as (-> & -> & ->).
          rewrite app_nil_r. exists (Ok a), env. auto.
        - apply runs_exec_with_args in E. destruct E as (env & -> & -> & _). exists (Err e), env. auto.
        - apply runs_exec_with_args in E. destruct E as (env & -> & -> & X). discriminate. }
    destruct G as (a & env & -> & -> & NP & ->). split; [reflexivity|]. split; [reflexivity|].
    exists (Ran {| call_path := path; call_stdin := pg_bytes conf; call_env := as_env env (api_args c verb runtime_conf_zero); call_answer := a |}).
    split; [exact NP|]. split; [reflexivity|].
    destruct (protocol_env_as_env c verb runtime_conf_zero env) as (E1 & _ & _ & _ & _ & E2).
    constructor; [reflexivity|reflexivity|now left|]. split; [split; assumption|reflexivity].
  - apply runs_find in R. destruct R as (-> & -> & _). split; [reflexivity|]. split; [reflexivity|]. exists (Missing e). split; [reflexivity|]. split; [reflexivity|]. now constructor.
  - apply runs_find in R. destruct R as (-> & -> & X). discriminate.
Qed.
Lemma turns_nil P : turns P [] [] [].
Proof. exists []. repeat split. intros [|i]; discriminate. Qed.
Lemma turns_cons (P : plugin_config -> trace -> turn_end -> Prop) net nets seg tr t ends : P net seg t -> turns P nets tr ends -> turns P (net :: nets) (seg ++ tr)%list (t :: ends).
Proof.
  intros H (segs & -> & L1 & L2 & F). exists (seg :: segs). split; [reflexivity|]. split; [cbn; now rewrite L1|]. split; [cbn; now rewrite L2|].
  intros [|i] n s e; cbn [nth_error]; [intros [= <-] [= <-] [= <-]; exact H|apply F].
Qed.
Definition gc_turn c inject (net : plugin_config) (seg : trace) (t : turn_end) : Prop :=
  exists conf, inject_conf net inject = Ok conf /\
    turn c (pc_type (pg_conf conf)) (fun x => plain_env c "GC" (call_env x) /\ call_stdin x = pg_bytes conf) seg t.
Lemma gc_plugin_loop_inv fl c inject : forall nets errs w tr w' r, runs fl (gc_plugin_loop c inject nets errs) w tr w' r ->
  w' = w /\ changed tr = [] /\
  ((r = Panic /\ exists net, In net nets /\ forall conf, inject_conf net inject <> Ok conf) \/
   (exists ends es, turns (gc_turn c inject) nets tr ends /\ r = Ok (errs ++ es)%list /\ (es = [] <-> Forall turn_ok ends))).
Proof.
  induction nets as [|net nets IH]; intros errs w tr w' r H; cbn [gc_plugin_loop] in H.
  - apply runs_ret in H. destruct H as (-> & -> & ->). split; [reflexivity|]. split; [reflexivity|]. right. exists [], [].
    split; [apply turns_nil|]. rewrite app_nil_r. split; [reflexivity|]. split; [constructor|reflexivity].
  - destruct (inject_conf net inject) as [conf|e|] eqn:IC.
    2,3: apply runs_ret in H; destruct H as (-> & -> & ->); split; [reflexivity|]; split; [reflexivity|]; left; split; [reflexivity|];
      exists net; split; [now left|]; rewrite IC; discriminate.
    apply runs_bind in H. destruct H as (t1 & w1 & a & t2 & R1 & R2 & ->).
    apply verb_only_turn in R1. destruct R1 as (-> & C1 & t & NP & -> & T).
    assert (K : exists es0, runs fl (gc_plugin_loop c inject nets (errs ++ es0)%list) w t2 w' r /\ (es0 = [] <-> turn_ok t)).
    { destruct t as [e|x]; cbn [end_answer] in *.
      - eexists. split; [exact R2|]. split; [discriminate|intros []].
      - cbn [turn_ok]. unfold succeeded. destruct (call_answer x) as [o|e|]; cbn [rmap] in R2; [| |discriminate].
        + exists []. rewrite app_nil_r. split; [exact R2|]. split; [eauto|reflexivity].
        + eexists. split; [exact R2|]. split; [discriminate|]. intros (o & X). discriminate. }
    destruct K as (es0 & R & L0). apply IH in R. destruct R as (-> & C2 & D). split; [reflexivity|]. rewrite changed_app, C1, C2. split; [reflexivity|].
    destruct D as [(-> & n & I & X)|(ends & es & T2 & -> & L1)].
    + left. split; [reflexivity|]. exists n. split; [now right|exact X].
    + right. exists (t :: ends), (es0 ++ es)%list. split; [apply turns_cons; [now exists conf|exact T2]|].
      split; [now rewrite app_assoc|]. split.
      * intros X. apply app_eq_nil in X. destruct X as (-> & ->). constructor; [now apply L0|now apply L1].
      * intros X. inversion X; subst. rewrite (proj2 L0), (proj2 L1) by assumption. reflexivity.
Qed.

(** *** Validation *)
Lemma version_info_inv fl path w tr w' r : runs fl (invoke_get_version_info path) w tr w' r ->
  w' = w /\ exists env a, tr = [(OpEnviron, REnv env); (OpExec path version_stdin (as_env env version_args), RStr a)] /\ is_panic a = false /\ r = version_answer a.
Proof.
  unfold invoke_get_version_info. rewrite runs_bind. intros (t1 & w1 & a & t2 & R1 & R2 & ->).
  apply runs_exec_with_args in R1. destruct R1 as (env & -> & -> & NP). apply runs_lift in R2. destruct R2 as (-> & -> & ->).
  split; [reflexivity|]. exists env, a. auto.
Qed.
Lemma version_answer_not_panic a : is_panic a = false -> version_answer a <> Panic.
Proof.
  intros NP. destruct a as [o|e|]; cbn [version_answer]; [|destruct (String.eqb (err_string e) "unknown CNI_COMMAND: VERSION"); discriminate|discriminate].
  unfold decode_plugin_info. destruct (obind (parse o) dec_plugin_info) as [i|]; [|discriminate].
  destruct (String.eqb (pi_version i) ""); [discriminate|]. destruct (pi_supported i); [|discriminate]. destruct (String.eqb (pi_version i) "0.2.0"); discriminate.
Qed.
Definition expected_version (v : string) : string := if String.eqb v "" then "0.1.0" else v.
Definition validated (v : string) (t : turn_end) : Prop :=
  match t with Missing _ => False | Ran x => exists vs, reports x vs /\ In (expected_version v) vs end.
Definition version_turn c (type : string) (seg : trace) (t : turn_end) : Prop :=
  turn c type version_probe seg t.
Lemma version_probe_made path env a :
  version_probe {| call_path := path; call_stdin := version_stdin; call_env := as_env env version_args; call_answer := a |}.
Proof.
  destruct (protocol_env_as_env {| c_path := ["dummy"]; c_cache_dir := "" |} "VERSION" {| rt_container := ""; rt_netns := "dummy"; rt_ifname := "dummy"; rt_args := []; rt_caps := []; rt_cache_dir := "" |} env) as (A1 & A2 & A3 & A4 & A5 & A6).
  cbn [call_env call_stdin]. repeat split; assumption || (vm_compute; reflexivity).
Qed.
Lemma validate_plugin_inv fl c type v w tr w' r : runs fl (validate_plugin c type v) w tr w' r ->
  w' = w /\ changed tr = [] /\ r <> Panic /\ exists t, version_turn c type tr t /\ (r = Ok tt <-> validated v t).
Proof.
  unfold validate_plugin. rewrite runs_rbindp. intros [(tr1 & w1 & path & tr2 & R1 & R2 & ->)|[(e & -> & R)|(-> & R)]].
  - apply runs_find in R1. destruct R1 as (-> & -> & _). apply runs_rbindp in R2.
    assert (G : exists env a, tr2 = [(OpEnviron, REnv env); (OpExec path version_stdin (as_env env version_args), RStr a)] /\ w' = w /\ is_panic a = false /\
       r = match version_answer a with Ok vi => if mem_str (expected_version v) (pi_supported vi) then Ok tt
             else Err (EMsg ("plugin " ++ type ++ " does not support config version " ++ quote (expected_version v))) | Err e => Err e | Panic => Panic end).
    { destruct R2 as [(t1 & w1 & vi & t2 & E1 & E2 & ->)|[(e & -> & E)|(-> & E)]].
      - apply version_info_inv in E1. destruct E1 as (-> & env & a & -> & NP & E). apply runs_ret in E2. destruct E2 as (-> & -> & ->).
        rewrite app_nil_r. exists env, a. rewrite <- E. auto.
      - apply version_info_inv in E. destruct E as (-> & env & a & -> & NP & E). exists env, a. rewrite <- E. auto.
      - apply version_info_inv in E. destruct E as (-> & env & a & -> & NP & E). exists env, a. rewrite <- E. auto. }
    destruct G as (env & a & -> & -> & NP & ->). split; [reflexivity|]. split; [reflexivity|].
    pose proof (version_answer_not_panic a NP) as NV. split; [destruct (version_answer a) as [vi|e|]; [destruct (mem_str _ _)| |]; congruence|].
    exists (Ran {| call_path := path; call_stdin := version_stdin; call_env := as_env env version_args; call_answer := a |}). split.
    + constructor; [reflexivity|reflexivity|now left|]. apply version_probe_made.
    + cbn [validated]. unfold reports. cbn [call_answer]. destruct (version_answer a) as [vi|e|].
      * destruct (mem_str (expected_version v) (pi_supported vi)) eqn:M.
        -- split; [|reflexivity]. intros _. exists (pi_supported vi). split; [eauto|now apply mem_str_In].
        -- split; [discriminate|]. intros (vs & (i & [= <-] & <-) & I). apply mem_str_In in I. congruence.
      * split; [discriminate|]. intros (vs & (i & X & _) & _). discriminate.
      * now destruct NV.
  - apply runs_find in R. destruct R as (-> & -> & _). split; [reflexivity|]. split; [reflexivity|]. split; [discriminate|]. exists (Missing e). split; [now constructor|].
    split; [discriminate|intros []].
  - apply runs_find in R. destruct R as (-> & -> & X). discriminate.
Qed.
Lemma sget_in_sorted {A} k (v : A) m : ssorted m -> In (k, v) m -> sget k m = Some v.
Proof.
  induction m as [|[k' v'] m IH]; intros S I; [destruct I|]. cbn [sget]. destruct I as [[= -> ->]|I]; [now rewrite String.eqb_refl|].
  rewrite ssorted_cons in S. destruct S as [L S]. destruct (String.eqb_spec k k') as [->|_]; [|now apply IH].
  pose proof (lb_get _ _ S L) as G. rewrite (IH S I) in G. discriminate.
Qed.
Lemma enabled_caps_in caps k : In k (enabled_caps caps) <-> In (k, true) caps.
Proof.
  unfold enabled_caps. rewrite in_flat_map. split.
  - intros ([k' b] & I & H). cbn in H. destruct b; [|destruct H]. destruct H as [<-|[]]. exact I.
  - intros G. exists (k, true). split; [exact G|now left].
Qed.
Lemma validate_loop_inv fl c v : forall nets caps errs w tr w' r, runs fl (validate_loop c v nets caps errs) w tr w' r ->
  w' = w /\ changed tr = [] /\ exists ends es,
    turns (fun net => version_turn c (pc_type (pg_conf net))) nets tr ends /\
    (es = [] <-> Forall (validated v) ends) /\
    r = Ok (sset_all (flat_map (fun net => map (fun k => (k, tt)) (enabled_caps (pc_caps (pg_conf net)))) nets) caps, (errs ++ es)%list).
Proof.
  induction nets as [|net nets IH]; intros caps errs w tr w' r H; cbn [validate_loop] in H.
  - apply runs_ret in H. destruct H as (-> & -> & ->). split; [reflexivity|]. split; [reflexivity|]. exists [], [].
    split; [apply turns_nil|]. split; [split; [constructor|reflexivity]|]. now rewrite app_nil_r.
  - apply runs_bind in H. destruct H as (t1 & w1 & a & t2 & R1 & R2 & ->).
    apply validate_plugin_inv in R1. destruct R1 as (-> & C1 & NP & t & T & V).
    assert (K : exists es0, runs fl (validate_loop c v nets (sset_all (map (fun k => (k, tt)) (enabled_caps (pc_caps (pg_conf net)))) caps) (errs ++ es0)%list) w t2 w' r /\ (es0 = [] <-> validated v t)).
    { destruct a as [[]|e|]; [| |now destruct NP].
      - exists []. rewrite app_nil_r. split; [exact R2|]. tauto.
      - exists [e]. split; [exact R2|]. rewrite <- V. split; discriminate. }
    destruct K as (es0 & R & L0). apply IH in R. destruct R as (-> & C2 & ends & es & T2 & L1 & ->). split; [reflexivity|]. rewrite changed_app, C1, C2. split; [reflexivity|].
    exists (t :: ends), (es0 ++ es)%list. split; [now apply turns_cons|]. split.
    + split.
      * intros X. apply app_eq_nil in X. destruct X as (-> & ->). constructor; [now apply L0|now apply L1].
      * intros X. inversion X; subst. rewrite (proj2 L0), (proj2 L1) by assumption. reflexivity.
    + cbn [flat_map]. rewrite sset_all_app, app_assoc. reflexivity.
Qed.

Lemma validate_list_inv fl c l w tr w' r : runs fl (validate_network_list c l) w tr w' r ->
  w' = w /\ changed tr = [] /\ exists ends,
    turns (fun net => version_turn c (pc_type (pg_conf net))) (nl_plugins l) tr ends /\
    ((Forall (validated (nl_version l)) ends /\ exists caps, r = Ok caps /\ NoDup caps /\
        forall k, In k caps <-> exists net, In net (nl_plugins l) /\ In (k, true) (pc_caps (pg_conf net))) \/
     (~ Forall (validated (nl_version l)) ends /\ exists e, r = Err e)).
Proof.
  intros H. unfold validate_network_list in H. apply runs_rbindp in H.
  destruct H as [(t1 & w1 & [caps errs] & t2 & R1 & R2 & ->)|[(e & -> & R)|(-> & R)]].
  2,3: apply validate_loop_inv in R; destruct R as (_ & _ & ends & es & _ & _ & X); discriminate.
  apply validate_loop_inv in R1. destruct R1 as (-> & C1 & ends & es & T & V & [= -> ->]). apply runs_ret in R2. destruct R2 as (-> & -> & ->).
  rewrite app_nil_r. split; [reflexivity|]. split; [exact C1|]. exists ends. split; [exact T|]. cbn [app]. destruct es as [|e es].
  - left. split; [now apply V|]. eexists. split; [reflexivity|]. split.
    + apply ssorted_nodup, sset_all_sorted. exact I.
    + intros k. rewrite sget_skeys. set (L := flat_map _ _). split.
      * intros [v G]. apply sget_In, sset_all_in in G. destruct G as [G|[]]. unfold L in G. apply in_flat_map in G. destruct G as (net & I & G).
        apply in_map_iff in G. destruct G as (k' & [= -> <-] & G). apply enabled_caps_in in G. eauto.
      * intros (net & I & G). rewrite sget_sset_all. destruct (last_get k L) as [v|] eqn:E; [eauto|]. exfalso. apply last_get_none in E. apply E.
        apply in_map_iff. exists (k, tt). split; [reflexivity|]. unfold L. apply in_flat_map. exists net. split; [exact I|].
        apply in_map_iff. exists k. split; [reflexivity|]. now apply enabled_caps_in.
  - right. split; [intros F; apply V in F; discriminate|eauto].
Qed.

(** *** GC: the stale attachments *)
Definition staleb (l : network_list) (args : option gc_args) (a : attachment) : bool :=
  String.eqb (at_network a) (nl_name l) &&
  negb (is_valid_attachment args {| ga_container := at_container a; ga_ifname := at_ifname a |}).
Lemma gc_eqb_iff a b : gc_eqb a b = true <-> a = b.
Proof.
  unfold gc_eqb. rewrite andb_true_iff, !String.eqb_eq. destruct a, b; cbn. split; [intros (-> & ->); reflexivity|intros [= -> ->]; auto].
Qed.
Lemma staleb_iff l args a : staleb l args a = true <-> stale l args a.
Proof.
  unfold staleb, stale. rewrite andb_true_iff, negb_true_iff, String.eqb_eq. unfold is_valid_attachment.
  destruct args as [[valid|]|].
  - split.
    + intros (E & X). split; [exact E|]. intros v [= <-] I. assert (T : existsb (gc_eqb {| ga_container := at_container a; ga_ifname := at_ifname a |}) valid = true).
      { apply existsb_exists. eexists. split; [exact I|]. now apply gc_eqb_iff. }
      congruence.
    + intros (E & X). split; [exact E|]. destruct (existsb _ valid) eqn:T; [|reflexivity]. apply existsb_exists in T. destruct T as (y & I & Y). apply gc_eqb_iff in Y. subst y.
      now destruct (X valid eq_refl).
  - split; [intros (E & _); split; [exact E|discriminate]|intros (E & _); auto].
  - split; [intros (E & _); split; [exact E|discriminate]|intros (E & _); auto].
Qed.
Lemma params_of_rt a : params_of a (rt_of_attachment a). Proof. repeat split. Qed.
Lemma gc_del_loop_inv fl c l args : forall atts errs w tr w' r, runs fl (gc_del_loop c l args atts errs) w tr w' r ->
  (r = Panic /\ exists done a rest tr1 w1 tr2 rs rt, filter (staleb l args) atts = (done ++ a :: rest)%list /\
     dels fl c l done w tr1 w1 rs /\ params_of a rt /\ runs fl (del_network_list c l rt) w1 tr2 w' Panic /\ tr = (tr1 ++ tr2)%list) \/
  (exists rs es, dels fl c l (filter (staleb l args) atts) w tr w' rs /\ r = Ok (errs ++ es)%list /\
     (es = [] <-> Forall (fun x => x = Ok tt) rs)).
Proof.
  induction atts as [|a atts IH]; intros errs w tr w' r H; cbn [gc_del_loop] in H.
  - apply runs_ret in H. destruct H as (-> & -> & ->). right. exists [], []. split; [constructor|]. rewrite app_nil_r. split; [reflexivity|]. split; [constructor|reflexivity].
  - cbn [filter]. assert (SB : staleb l args a = String.eqb (at_network a) (nl_name l) && negb (is_valid_attachment args {| ga_container := at_container a; ga_ifname := at_ifname a |})) by reflexivity.
    destruct (String.eqb (at_network a) (nl_name l)); cbn [negb andb] in *; [|rewrite SB; now apply IH].
    destruct (is_valid_attachment args _); cbn [negb] in *; rewrite SB; [now apply IH|].
    apply runs_bind in H. destruct H as (t1 & w1 & a1 & t2 & R1 & R2 & ->).
    destruct a1 as [[]|e|].
    3:{ apply runs_ret in R2. destruct R2 as (-> & -> & ->). left. split; [reflexivity|]. exists [], a, (filter (staleb l args) atts), [], w, t1, [], (rt_of_attachment a).
        rewrite app_nil_r. split; [reflexivity|]. split; [constructor|]. split; [apply params_of_rt|]. auto. }
    all: apply IH in R2; destruct R2 as [(-> & done & b & rest & tr1 & w2 & tr2 & rs & rt & E & D & P & R & ->)|(rs & es & D & -> & V)].
    + left. split; [reflexivity|]. exists (a :: done), b, rest, (t1 ++ tr1)%list, w2, tr2, (Ok tt :: rs), rt. rewrite E.
      split; [reflexivity|]. split; [econstructor; [apply params_of_rt|exact R1|exact D]|]. split; [exact P|]. split; [exact R|now rewrite app_assoc].
    + right. exists (Ok tt :: rs), es. split; [econstructor; [apply params_of_rt|exact R1|exact D]|]. split; [reflexivity|]. rewrite V. split.
      * intros F. now constructor.
      * intros F. now inversion F.
    + left. split; [reflexivity|]. exists (a :: done), b, rest, (t1 ++ tr1)%list, w2, tr2, (Err e :: rs), rt. rewrite E.
      split; [reflexivity|]. split; [econstructor; [apply params_of_rt|exact R1|exact D]|]. split; [exact P|]. split; [exact R|now rewrite app_assoc].
    + right. eexists (Err e :: rs), (_ :: es). split; [econstructor; [apply params_of_rt|exact R1|exact D]|]. rewrite <- app_assoc. cbn [app]. split; [reflexivity|]. split; [discriminate|].
      intros F. inversion F. discriminate.
Qed.
Lemma read_attachments_inv fl dir id : forall names w tr w' r, runs fl (read_attachments dir id names) w tr w' r ->
  w' = w /\ changed tr = [] /\ calls tr = [] /\
  (fl = false -> r = flat_map (fun n => if name_selected id n then
      match sget (join_path [dir; n]) w with Some d => match attachment_of id d with Some a => [a] | None => [] end | None => [] end else []) names).
Proof.
  induction names as [|n names IH]; intros w tr w' r H; cbn [read_attachments] in H.
  - apply runs_ret in H. destruct H as (-> & -> & ->). auto.
  - cbn [flat_map]. destruct (name_selected id n); cbn [negb] in H.
    + apply runs_bind in H. destruct H as (t1 & w1 & d & t2 & R1 & R2 & ->). apply runs_read in R1. destruct R1 as (-> & -> & D).
      apply runs_bind in R2. destruct R2 as (t3 & w2 & l & t4 & R3 & R4 & ->). apply runs_ret in R4. destruct R4 as (-> & -> & ->).
      apply IH in R3. destruct R3 as (-> & C1 & C2 & E). split; [reflexivity|]. rewrite !changed_app, !calls_app, C1, C2. split; [reflexivity|]. split; [reflexivity|].
      intros F. rewrite (E F). destruct D as [->|(X & _)]; [|congruence]. destruct (sget (join_path [dir; n]) w); reflexivity.
    + apply IH in H. exact H.
Qed.
Lemma get_cached_attachments_inv fl c id w tr w' r : runs fl (get_cached_attachments c id) w tr w' r ->
  w' = w /\ changed tr = [] /\ calls tr = [] /\
  ((exists l, r = Ok l) \/ (fl = true /\ exists e, r = Err e)) /\
  (fl = false -> r = Ok (flat_map (fun n => if name_selected id n then
      match sget (join_path [join_path [cache_root c runtime_conf_zero; "results"]; n]) w with Some d => match attachment_of id d with Some a => [a] | None => [] end | None => [] end else [])
      (sort_strings (children (join_path [cache_root c runtime_conf_zero; "results"]) w)))).
Proof.
  unfold get_cached_attachments. change (get_cache_dir c runtime_conf_zero) with (cache_root c runtime_conf_zero).
  set (dir := join_path [cache_root c runtime_conf_zero; "results"]). intros H. unfold read_dir in H. cbn [bind] in H. apply runs_do in H.
  destruct H as (x & w1 & t1 & -> & An & R).
  assert (K : w1 = w /\ ((x = RNames (Ok (children dir w))) \/ (children dir w = [] /\ exists e, is_not_exist e = true /\ x = RNames (Err e)) \/ (fl = true /\ exists e, x = RNames (Err e)))).
  { inversion An; subst; split; try reflexivity; eauto 8. }
  destruct K as (-> & K). clear An. destruct K as [->|[(CH & e & NE & ->)|(F & e & ->)]].
  - apply runs_bind in R. destruct R as (t2 & w2 & l & t3 & R1 & R2 & ->). apply runs_ret in R2. destruct R2 as (-> & -> & ->).
    apply read_attachments_inv in R1. destruct R1 as (-> & C1 & C2 & E). split; [reflexivity|].
    change (((OpReadDir dir, RNames (Ok (children dir w))) :: t2 ++ [])%list) with ([(OpReadDir dir, RNames (Ok (children dir w)))] ++ t2 ++ [])%list.
    rewrite !changed_app, !calls_app, C1, C2. split; [reflexivity|]. split; [reflexivity|]. split; [eauto|]. intros F. now rewrite (E F).
  - apply runs_ret in R. destruct R as (-> & -> & ->). rewrite NE. split; [reflexivity|]. split; [reflexivity|]. split; [reflexivity|]. split; [eauto|]. intros _. rewrite CH. reflexivity.
  - apply runs_ret in R. destruct R as (-> & -> & ->). split; [reflexivity|]. split; [reflexivity|]. split; [reflexivity|].
    split; [destruct (is_not_exist e); eauto|congruence].
Qed.
(** GC as a whole. *)
Lemma gc_network_list_inv fl c l args w tr w' r : runs fl (gc_network_list c l args) w tr w' r ->
  (nl_disable_gc l = true /\ tr = [] /\ w' = w /\ r = Ok tt) \/
  (nl_disable_gc l = false /\ fl = true /\ (exists e, runs fl (get_cached_attachments c "") w tr w (Err e)) /\ w' = w /\ r = Ok tt) \/
  (nl_disable_gc l = false /\ exists tr0 atts tr1 tr2 w1, runs fl (get_cached_attachments c "") w tr0 w (Ok atts) /\ tr = (tr0 ++ tr1 ++ tr2)%list /\
    ((r = Panic /\ tr2 = [] /\ w1 = w' /\ runs fl (gc_del_loop c l args atts []) w tr1 w' Panic) \/
     (exists es rs, runs fl (gc_del_loop c l args atts []) w tr1 w1 (Ok es) /\
       dels fl c l (filter (staleb l args) atts) w tr1 w1 rs /\ (es = [] <-> Forall (fun x => x = Ok tt) rs) /\ w' = w1 /\ changed tr2 = [] /\
       ((~ at_least (nl_version l) (1, 1, 0)%Z /\ tr2 = [] /\ r = join_errors es) \/
        (at_least (nl_version l) (1, 1, 0)%Z /\
          ((r = Panic /\ exists net, In net (nl_plugins l) /\ forall conf, inject_conf net (gc_inject l args) <> Ok conf) \/
           (exists ends es', turns (gc_turn c (gc_inject l args)) (nl_plugins l) tr2 ends /\ r = join_errors (es ++ es')%list /\ (es' = [] <-> Forall turn_ok ends)))))))).
Proof.
  unfold gc_network_list. destruct (nl_disable_gc l) eqn:DG; intros H.
  { left. apply runs_ret in H. destruct H as (-> & -> & ->). auto. }
  right. apply runs_bind in H. destruct H as (t1 & w1 & a & t2 & R1 & R2 & ->). pose proof R1 as R1'. apply get_cached_attachments_inv in R1.
  destruct R1 as (-> & _ & _ & K & _). destruct a as [atts|e|].
  2:{ left. apply runs_ret in R2. destruct R2 as (-> & -> & ->). rewrite app_nil_r. split; [reflexivity|].
      split; [destruct K as [[x X]|[F _]]; [discriminate|exact F]|]. eauto. }
  2:{ destruct K as [[x X]|(_ & e & X)]; discriminate. }
  right. split; [reflexivity|]. apply runs_rbindp in R2. destruct R2 as [(u1 & w1 & es & u2 & R2 & R3 & ->)|[(e & -> & R)|(-> & R)]].
  - exists t1, atts, u1, u2, w1. split; [exact R1'|]. split; [reflexivity|]. right.
    pose proof R2 as R2'. apply gc_del_loop_inv in R2. destruct R2 as [(X & _)|(rs & es0 & D & [= ->] & V)]; [discriminate|]. exists es0, rs.
    split; [exact R2'|]. split; [exact D|]. split; [exact V|].
    apply runs_rbindp in R3. destruct (gte_or_false (nl_version l) "1.1.0") eqn:G.
    + apply gte_or_false_iff in G.
      destruct R3 as [(v1 & w2 & es1 & v2 & R3 & R4 & ->)|[(e & -> & R)|(-> & R)]].
      * apply runs_ret in R4. destruct R4 as (-> & -> & ->). rewrite app_nil_r. apply gc_plugin_loop_inv in R3. destruct R3 as (-> & C & [(X & _)|(ends & es' & T & [= ->] & V')]); [discriminate|].
        split; [reflexivity|]. split; [exact C|]. right. split; [exact G|]. right. exists ends, es'. auto.
      * apply gc_plugin_loop_inv in R. destruct R as (_ & _ & [(X & _)|(ends & es' & _ & X & _)]); discriminate.
      * apply gc_plugin_loop_inv in R. destruct R as (-> & C & [(_ & X)|(ends & es' & _ & X & _)]); [|discriminate]. split; [reflexivity|]. split; [exact C|]. right. auto.
    + assert (NG : ~ at_least (nl_version l) (1, 1, 0)%Z) by (rewrite <- gte_or_false_iff; congruence).
      destruct R3 as [(v1 & w2 & es1 & v2 & R3 & R4 & ->)|[(e & -> & R)|(-> & R)]].
      * apply runs_ret in R3. destruct R3 as (-> & -> & [= ->]). apply runs_ret in R4. destruct R4 as (-> & -> & ->).
        split; [reflexivity|]. split; [reflexivity|]. left. auto.
      * apply runs_ret in R. destruct R as (_ & _ & R). discriminate.
      * apply runs_ret in R. destruct R as (_ & _ & R). discriminate.
  - apply gc_del_loop_inv in R. destruct R as [(X & _)|(rs & es & _ & X & _)]; discriminate.
  - exists t1, atts, t2, [], w'. split; [exact R1'|]. rewrite app_nil_r. split; [reflexivity|]. left. auto.
Qed.

(** *** Names of cache files *)
Lemma cache_root_nonempty c rt : cache_root c rt <> "".
Proof.
  unfold cache_root. destruct (String.eqb_spec (c_cache_dir c) ""), (String.eqb_spec (rt_cache_dir rt) ""); cbn [negb]; congruence.
Qed.
Lemma contains_app ch a b : contains_byte ch (a ++ b) = contains_byte ch a || contains_byte ch b.
Proof. induction a as [|x a IH]; [reflexivity|]. cbn [append]. rewrite !contains_byte_cons, IH. now rewrite orb_assoc. Qed.
Lemma utf8_slash r : scalar r -> contains_byte Path.slash (utf8 r) = true -> r = 47%N.
Proof.
  intros S. rewrite utf8_encode. unfold encode_rune.
  assert (HI : forall n, (128 <= n < 256)%N -> Ascii.eqb Path.slash (chr n) = false).
  { intros n B. apply Ascii.eqb_neq. intros E. apply (f_equal code) in E. rewrite code_chr in E by lia. change (code Path.slash) with 47%N in E. lia. }
  pose proof (scalar_bound _ S) as B.
  destruct (N.ltb_spec r 128).
  { rewrite contains_byte_cons. cbn [contains_byte]. rewrite orb_false_r. intros E. apply Ascii.eqb_eq in E. apply (f_equal code) in E. rewrite code_chr in E by lia. symmetry. exact E. }
  assert (M : forall x, (128 <= 128 + x mod 64 < 256)%N) by (intros x; pose proof (N.mod_lt x 64); lia).
  destruct (N.ltb_spec r 2048); [|destruct (N.ltb_spec r 65536)]; rewrite !contains_byte_cons; cbn [contains_byte]; rewrite !HI; try discriminate; try apply M.
  - assert (r / 64 < 32)%N by (apply N.div_lt_upper_bound; lia). lia.
  - assert (r / 4096 < 16)%N by (apply N.div_lt_upper_bound; lia). lia.
  - assert (r / 262144 < 5)%N by (apply N.div_lt_upper_bound; lia). lia.
Qed.
Lemma reads_slash s rs : reads s rs -> contains_byte Path.slash s = true -> In 47%N rs.
Proof.
  induction 1 as [|r s rs S R IH|c s rs B R IH]; intros C.
  - discriminate.
  - rewrite contains_app in C. apply orb_true_iff in C. destruct C as [C|C]; [left; now apply utf8_slash|right; auto].
  - rewrite contains_byte_cons in C. apply orb_true_iff in C. destruct C as [C|C]; [|right; auto]. exfalso. apply Ascii.eqb_eq in C. subst c.
    apply (B 47%N s); [left; reflexivity|reflexivity].
Qed.
Lemma ifname_no_slash s : validate_interface_name s = None -> contains_byte Path.slash s = false.
Proof.
  intros V. apply validate_interface_name_ok in V. destruct V as (_ & _ & _ & _ & V).
  destruct (contains_byte Path.slash s) eqn:C; [|reflexivity]. exfalso.
  pose proof (runes_reads s) as R. destruct (V _ R 47%N (reads_slash _ _ R C)) as (X & _). now destruct X.
Qed.
Lemma all_bytes_no_slash s : all_bytes name_char s -> contains_byte Path.slash s = false.
Proof.
  induction 1 as [|c s H _ IH]; [reflexivity|]. rewrite contains_byte_cons, IH, orb_false_r. apply Ascii.eqb_neq. intros <-.
  unfold name_char, alnum, byte in H. destruct H as [H|[H|[H|H]]]; try discriminate. change (N_of_ascii Path.slash) with 47%N in H. lia.
Qed.
Lemma good_no_slash s : good_name s -> contains_byte Path.slash s = false.
Proof.
  intros (c & rest & -> & A & R). apply all_bytes_no_slash. constructor; [now left|exact R].
Qed.
Lemma entry_name_ok name rt : validate_container_id (rt_container rt) = None -> validate_network_name name = None ->
  validate_interface_name (rt_ifname rt) = None -> file_name (entry_name name rt).
Proof.
  intros V1 V2 V3. pose proof (ifname_no_slash _ V3) as S3. apply validate_container_id_ok in V1. apply validate_network_name_ok in V2.
  pose proof (good_no_slash _ V1) as S1. pose proof (good_no_slash _ V2) as S2. unfold entry_name.
  destruct V2 as (c & rest & -> & _ & _). destruct V1 as (c' & rest' & E' & _ & _). rewrite E' in *.
  split; [discriminate|]. split; [|split].
  - destruct rest as [|? []]; discriminate.
  - destruct rest as [|? []]; discriminate.
  - apply lacks_cb. change (contains_byte Path.slash (String c rest ++ "-" ++ String c' rest' ++ "-" ++ rt_ifname rt) = false).
    rewrite !contains_app, S1, S2, S3. reflexivity.
Qed.
