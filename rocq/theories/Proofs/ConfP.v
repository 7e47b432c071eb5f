(** Configurations: injection and requests. *)
From Coq Require Import String Ascii List Arith ZArith NArith Bool Lia.
From Verif Require Import Model.GoStr Model.Errors Model.Version Model.Json Model.Num Model.GoJson
  Model.NetIP Model.Types Model.Conf Model.Prog Model.Api
  Spec.NameSpec Spec.JsonSpec Spec.ConfSpec
  Proofs.StrP Proofs.JsonP Proofs.JsonRT Proofs.NumP Proofs.GoJsonP Proofs.EnvP.
Import ListNotations.
Open Scope nat_scope.
Open Scope string_scope.

(** *** InjectConf *)
Lemma encode_all_some l kvs : encode_all l = Some kvs <-> l = map (fun kj => (fst kj, GVal (Some (snd kj)))) kvs.
Proof.
  revert kvs. induction l as [|[k g] l IH]; intros kvs; cbn.
  - split; [intros H; injection H as <-; reflexivity|]. destruct kvs; [reflexivity|discriminate].
  - destruct g as [|[j|]].
    + split; [discriminate|]. destruct kvs; discriminate.
    + destruct (encode_all l) as [t|].
      * split.
        -- intros H. injection H as <-. cbn. f_equal. now apply IH.
        -- destruct kvs as [|[k' j'] kvs]; cbn; [discriminate|]. intros H. injection H as -> -> H. apply IH in H. injection H as ->. reflexivity.
      * split; [discriminate|]. destruct kvs as [|[k' j'] kvs]; cbn; [discriminate|]. intros H. injection H as -> -> H. apply IH in H. discriminate.
    + split; [discriminate|]. destruct kvs; discriminate.
Qed.
Lemma plugin_from_ok b p : plugin_conf_from_bytes b = Ok p <->
  exists c, unmarshal_plugin_conf b = Some c /\ pc_type c <> "" /\ p = {| pg_conf := c; pg_bytes := b |}.
Proof.
  unfold plugin_conf_from_bytes. destruct (unmarshal_plugin_conf b) as [c|].
  - destruct (String.eqb_spec (pc_type c) "") as [E|N].
    + split; [discriminate|]. intros (c' & H & N & _). injection H as <-. contradiction.
    + split; [intros H; injection H as <-; eauto|]. intros (c' & H & _ & ->). now injection H as <-.
  - split; [discriminate|]. intros (c' & H & _). discriminate.
Qed.
Lemma plugin_from_not_panic b : plugin_conf_from_bytes b <> Panic.
Proof. unfold plugin_conf_from_bytes. destruct (unmarshal_plugin_conf b); [|discriminate]. destruct (String.eqb _ _); discriminate. Qed.

Definition gvals (kvs : list (string * json)) : list (string * gval) :=
  map (fun kj => (fst kj, GVal (Some (snd kj)))) kvs.
Lemma inject_check_ok null vals : inject_check null vals = Ok tt <->
  (null = true -> vals = []) /\ forall k v, In (k, v) vals -> k <> "" /\ v <> GNil.
Proof.
  induction vals as [|[k v] vals IH]; cbn [inject_check]; [split; [intros _; split; [reflexivity|intros k v []]|reflexivity]|].
  destruct (String.eqb_spec k "") as [-> |K].
  - split; [discriminate|]. intros [_ H]. now destruct (H "" v (or_introl eq_refl)).
  - destruct v as [|enc].
    + split; [discriminate|]. intros [_ H]. now destruct (H k GNil (or_introl eq_refl)).
    + destruct null.
      * split; [discriminate|]. intros [H _]. specialize (H eq_refl). discriminate.
      * rewrite IH. split; intros [_ H]; (split; [discriminate|]).
        -- intros k' v' [E|I']; [injection E as <- <-; split; [exact K|discriminate]|now apply H].
        -- intros k' v' I'. apply H. now right.
Qed.
Lemma inject_check_end vals : inject_check false vals = Ok tt \/ exists e, inject_check false vals = Err e.
Proof.
  induction vals as [|[k v] vals IH]; cbn [inject_check]; [now left|]. destruct (String.eqb k ""); [right; eauto|]. destruct v; [right; eauto|exact IH].
Qed.
Lemma gvals_ok kvs : inject_check false (gvals kvs) = Ok tt <-> Forall (fun kj => fst kj <> "") kvs.
Proof.
  rewrite inject_check_ok, Forall_forall. unfold gvals. split.
  - intros [_ H] [k j] I'. apply (H k (GVal (Some j))). apply in_map_iff. exists (k, j). auto.
  - intros H. split; [discriminate|]. intros k v I'. apply in_map_iff in I' as ([k' j] & E & I'). injection E as <- <-.
    split; [exact (H _ I')|discriminate].
Qed.
Lemma gvals_check kvs : inject_check false (gvals kvs) =
  if existsb (fun kj => String.eqb (fst kj) "") kvs then Err (EMsg "keys cannot be empty") else Ok tt.
Proof. unfold gvals. induction kvs as [|[k j] l IH]; [reflexivity|]. cbn [map inject_check existsb fst snd]. destruct (String.eqb k ""); [reflexivity|exact IH]. Qed.
Lemma keys_ok_iff kvs : existsb (fun kj : string * json => String.eqb (fst kj) "") kvs = false <-> Forall (fun kj => fst kj <> "") kvs.
Proof.
  induction kvs as [|[k j] l IH]; cbn; [split; auto|]. rewrite orb_false_iff, IH, String.eqb_neq. split.
  - intros [A B]. constructor; assumption.
  - intros H. inversion H; auto.
Qed.

Lemma inject_ok orig vals new : inject_conf orig vals = Ok new <->
  exists m kvs c, unmarshal_map (pg_bytes orig) = Some (Some m) /\ vals = gvals kvs /\
    Forall (fun kj => fst kj <> "") kvs /\
    unmarshal_plugin_conf (print (JObj (sset_all kvs m))) = Some c /\ pc_type c <> "" /\
    new = {| pg_conf := c; pg_bytes := print (JObj (sset_all kvs m)) |}.
Proof.
  unfold inject_conf. split.
  - destruct (unmarshal_map (pg_bytes orig)) as [[m|]|]; [| |discriminate].
    + destruct (inject_check false vals) as [[]| |] eqn:K; [|discriminate|discriminate]. cbn [rbind].
      destruct (encode_all vals) as [kvs|] eqn:E; [|discriminate]. apply encode_all_some in E. subst vals.
      change (map _ kvs) with (gvals kvs) in *. apply gvals_ok in K.
      intros H. apply plugin_from_ok in H. destruct H as (c & U & T & ->).
      exists m, kvs, c. auto 6.
    + destruct (inject_check true vals) as [[]| |]; [|discriminate|discriminate]. intros H. vm_compute in H. discriminate.
  - intros (m & kvs & c & U & -> & K & P & T & ->). rewrite U. rewrite (proj2 (gvals_ok kvs) K). cbn [rbind].
    rewrite (proj2 (encode_all_some (gvals kvs) kvs) eq_refl). apply plugin_from_ok. eauto.
Qed.

(** Map merging. *)
Lemma inject_canonical kvs m : Forall (fun kj => canonical (snd kj)) kvs -> canonical (JObj m) -> canonical (JObj (sset_all kvs m)).
Proof.
  intros K C. apply canonical_obj in C. destruct C as [S C]. apply canonical_obj. split; [now apply sset_all_sorted|].
  apply Forall_sset_all; assumption.
Qed.
Lemma inject_encodable kvs m : Forall (fun kj => well_formed_text (fst kj) /\ jwf (snd kj) /\ (jdepth (snd kj) <= 9999)%N) kvs ->
  encodable (JObj m) -> encodable (JObj (sset_all kvs m)).
Proof.
  intros K [W D]. split.
  - apply jwf_obj. apply jwf_obj in W. apply Forall_sset_all; [|exact W]. eapply Forall_impl; [|exact K]. cbn. tauto.
  - change 10000%N with (N.succ 9999) in *. apply jdepth_obj in D. apply jdepth_obj. apply Forall_sset_all; [|exact D].
    eapply Forall_impl; [|exact K]. cbn. tauto.
Qed.
Lemma norm_pairs_some l : (forall k x, In (k, x) l -> exists y, norm x = Some y) -> exists l', norm_pairs l = Some l'.
Proof.
  induction l as [|[k x] l IH]; intros H; [exists []; reflexivity|]. cbn.
  destruct (H k x (or_introl eq_refl)) as [y ->]. destruct IH as [l' ->]; [intros k' x' I; apply (H k' x'); now right|]. eauto.
Qed.
Lemma norm_obj_some l : (forall k x, In (k, x) l -> exists y, norm x = Some y) -> exists m, norm (JObj l) = Some (JObj m).
Proof. intros H. destruct (norm_pairs_some l H) as [l' E]. rewrite norm_obj, E. cbn. eauto. Qed.
Lemma sset_all_in {A} (kvs : list (string * A)) (m : smap A) k x : In (k, x) (sset_all kvs m) -> In (k, x) kvs \/ In (k, x) m.
Proof.
  unfold sset_all. revert m. induction kvs as [|[k' v'] kvs IH]; intros m H; [now right|]. cbn in H.
  apply IH in H. destruct H as [H|H]; [left; now right|].
  clear IH. assert (G : forall m : smap A, In (k, x) (sset k' v' m) -> (k, x) = (k', v') \/ In (k, x) m).
  { clear. induction m as [|[k2 v2] m IH]; cbn; [intros [H|[]]; auto|].
    destruct (String.compare k' k2); cbn; intros H.
    - destruct H as [H|H]; auto.
    - destruct H as [H|[H|H]]; auto.
    - destruct H as [H|H]; auto. apply IH in H. destruct H; auto. }
  apply G in H. destruct H as [H|H]; [left; left; auto|now right].
Qed.

(** Reading members. *)
Lemma norm_member o m k : norm (JObj o) = Some (JObj m) ->
  reencoded_opt (last_member k o) (sget k m).
Proof.
  intros N. pose proof (norm_at_path [Key k] _ _ N) as H. cbn in H.
  assert (C : canonical (JObj m)) by (eapply norm_canonical; exact N). apply canonical_obj in C. destruct C as [S _].
  rewrite (last_member_sorted k m S) in H.
  destruct (last_member k o) as [x|] eqn:L; destruct (sget k m) as [y|]; cbn; try exact I; try discriminate; unfold reencoded; try congruence.
  rewrite last_member_last_get in L. destruct (norm_some_member _ _ _ _ N L) as [x' E]. congruence.
Qed.
Lemma in_last_member k v o : In (k, v) o -> exists x, last_member k o = Some x.
Proof.
  induction o as [|[k' v'] o IH]; intros H; [destruct H|]. cbn. destruct H as [H|H].
  - injection H as -> ->. rewrite String.eqb_refl. destruct (last_member k o); eauto.
  - destruct (IH H) as [x ->]. eauto.
Qed.
Lemma last_member_in k x o : last_member k o = Some x -> In (k, x) o.
Proof.
  induction o as [|[k' v'] o IH]; cbn; [discriminate|]. destruct (last_member k o) as [y|].
  - intros H. right. auto.
  - destruct (String.eqb_spec k k') as [->|]; [|discriminate]. intros H. injection H as ->. now left.
Qed.
Lemma unmarshal_map_doc b o : parse b = Some (JObj o) ->
  unmarshal_map b = match norm (JObj o) with Some (JObj m) => Some (Some m) | _ => None end.
Proof. intros P. unfold unmarshal_map. rewrite P. reflexivity. Qed.

(** One injection, as documents. *)
Lemma inject_doc orig kvs new o :
  inject_conf orig (gvals kvs) = Ok new -> parse (pg_bytes orig) = Some (JObj o) ->
  Forall (fun kj => well_formed_text (fst kj) /\ jwf (snd kj) /\ (jdepth (snd kj) <= 9999)%N) kvs ->
  exists d, parse (pg_bytes new) = Some (JObj d) /\ ssorted d /\ dec_plugin_conf (JObj d) = Some (pg_conf new) /\
    pc_type (pg_conf new) <> "" /\
    forall k, match last_get k kvs with
              | Some j => last_member k d = Some j
              | None => reencoded_opt (last_member k o) (last_member k d)
              end.
Proof.
  intros H P F. apply inject_ok in H. destruct H as (m & kvs' & c & U & E & _ & D & T & ->).
  assert (kvs' = kvs).
  { clear - E. unfold gvals in E. revert kvs' E. induction kvs as [|[k j] l IH]; intros [|[k' j'] l'] E; try discriminate; [reflexivity|].
    cbn in E. injection E as -> -> E. f_equal. now apply IH. }
  subst kvs'. clear E. cbn [pg_bytes pg_conf].
  pose proof (unmarshal_map_canonical _ _ U) as [C Enc]. pose proof (inject_encodable kvs m F Enc) as E.
  rewrite (parse_print _ E). exists (sset_all kvs m). split; [reflexivity|].
  apply canonical_obj in C. destruct C as [S _]. assert (S' : ssorted (sset_all kvs m)) by now apply sset_all_sorted.
  split; [exact S'|]. unfold unmarshal_plugin_conf in D. rewrite (parse_print _ E) in D. split; [exact D|]. split; [exact T|].
  intros k. rewrite (last_member_sorted k _ S'), sget_sset_all.
  destruct (last_get k kvs); [reflexivity|].
  apply unmarshal_map_some in U. destruct U as (j & P' & _ & N). rewrite P in P'. injection P' as <-.
  now apply norm_member.
Qed.

(** *** Decoding types.PluginConf *)
Lemma decode_members_app {A} (step : A -> string -> json -> option A) l1 l2 a :
  decode_members step a (l1 ++ l2)%list =
  match decode_members step a l1 with Some b => decode_members step b l2 | None => None end.
Proof.
  unfold decode_members. rewrite fold_left_app. destruct (fold_left _ l1 (Some a)) as [b|]; [reflexivity|].
  induction l2 as [|x l IH]; [reflexivity|exact IH].
Qed.
Lemma decode_members_cons {A} (step : A -> string -> json -> option A) k v l a :
  decode_members step a ((k, v) :: l) = match step a k v with Some b => decode_members step b l | None => None end.
Proof.
  change ((k, v) :: l) with ([(k, v)] ++ l)%list. rewrite decode_members_app. unfold decode_members at 1. cbn.
  now destruct (step a k v).
Qed.
Lemma decode_members_nil {A} (step : A -> string -> json -> option A) a : decode_members step a [] = Some a.
Proof. reflexivity. Qed.
(** A projection untouched by the members of a list keeps its value. *)
Lemma decode_members_keep {A B} (step : A -> string -> json -> option A) (f : A -> B) (p : string -> bool) :
  (forall a k v a', step a k v = Some a' -> p k = false -> f a' = f a) ->
  forall l a a', decode_members step a l = Some a' -> (forall k v, In (k, v) l -> p k = false) -> f a' = f a.
Proof.
  intros H l. induction l as [|[k v] l IH]; intros a a' D N; [injection D as <-; reflexivity|].
  rewrite decode_members_cons in D. destruct (step a k v) as [b|] eqn:E; [|discriminate].
  rewrite (IH b a' D) by (intros k' v' I; apply (N k' v'); now right).
  eapply H; [exact E|]. apply (N k v). now left.
Qed.

(** Field names with different folded forms never match the same key. *)
Lemma key_is_excl f g k : fold_key f <> fold_key g -> key_is f k = true -> key_is g k = false.
Proof.
  unfold key_is. intros N H. apply String.eqb_eq in H. apply String.eqb_neq. congruence.
Qed.

Ltac step_inv H :=
  unfold plugin_conf_step in H;
  repeat match type of H with
         | (if ?b then _ else _) = Some _ => destruct b eqn:?
         | option_map _ ?x = Some _ => destruct x eqn:?; cbn in H; [injection H as <-|discriminate]
         end.
Lemma step_name_keep c k v c' : plugin_conf_step c k v = Some c' -> key_is "name" k = false -> pc_name c' = pc_name c.
Proof. intros H N. step_inv H; try reflexivity; try congruence. Qed.
Lemma step_version_keep c k v c' : plugin_conf_step c k v = Some c' -> key_is "cniVersion" k = false -> pc_version c' = pc_version c.
Proof. intros H N. step_inv H; try reflexivity; try congruence. Qed.
Lemma step_type_keep c k v c' : plugin_conf_step c k v = Some c' -> key_is "type" k = false -> pc_type c' = pc_type c.
Proof. intros H N. step_inv H; try reflexivity; try congruence. Qed.
Lemma step_caps_keep c k v c' : plugin_conf_step c k v = Some c' -> key_is "capabilities" k = false -> pc_caps c' = pc_caps c.
Proof. intros H N. step_inv H; try reflexivity; try congruence. Qed.
Lemma step_prev_keep c k v c' : plugin_conf_step c k v = Some c' -> key_is "prevResult" k = false -> pc_prev c' = pc_prev c.
Proof. intros H N. step_inv H; try reflexivity; try congruence. Qed.

Lemma split_sorted {A} k (x : A) m : ssorted m -> sget k m = Some x ->
  exists l1 l2, m = (l1 ++ (k, x) :: l2)%list /\
    (forall k' y, In (k', y) l1 -> String.compare k' k = Lt) /\
    (forall k' y, In (k', y) l2 -> String.compare k k' = Lt).
Proof.
  intros S G. assert (Z : forall k' y (m : smap A) q, ssorted m -> lb q m -> In (k', y) m -> String.compare q k' = Lt).
  { clear. intros k' y m. induction m as [|[k2 v2] m IH]; intros q S L I; [destruct I|].
    rewrite ssorted_cons in S. destruct S as [L2 S2]. cbn in L. destruct I as [I|I]; [injection I as -> ->; exact L|].
    eapply compare_trans; [exact L|]. now apply (IH k2). }
  induction m as [|[k' v'] m IH]; [discriminate|].
  rewrite ssorted_cons in S. destruct S as [L S]. cbn in G.
  destruct (String.eqb_spec k k') as [E|N].
  - subst k'. injection G as ->. exists [], m. split; [reflexivity|]. split; [intros ? ? []|].
    intros k' y I. now apply (Z k' y m k).
  - destruct (IH S G) as (l1 & l2 & -> & A1 & A2). exists ((k', v') :: l1), l2. split; [reflexivity|]. split; [|exact A2].
    intros k2 y [I|I]; [|eapply A1; exact I]. injection I as -> ->.
    eapply (Z k x _ k2); [exact S|exact L|]. apply in_or_app. right. now left.
Qed.

(** A string field of the request: the last member matching it wins. *)
Lemma decode_name d c x : ssorted d -> dec_plugin_conf (JObj d) = Some c -> sget "name" d = Some (JStr x) ->
  (forall k v, In (k, v) d -> key_is "name" k = true -> k = "name" \/ String.compare k "name" = Lt) -> pc_name c = x.
Proof.
  intros S D G H. destruct (split_sorted _ _ _ S G) as (l1 & l2 & E & _ & A2). subst d.
  unfold dec_plugin_conf, decode_struct in D. rewrite decode_members_app in D.
  destruct (decode_members plugin_conf_step plugin_conf_zero l1) as [b|]; [|discriminate].
  rewrite decode_members_cons in D. change (plugin_conf_step b "name" (JStr x)) with
    (Some {| pc_version := pc_version b; pc_name := x; pc_type := pc_type b; pc_caps := pc_caps b;
             pc_ipam := pc_ipam b; pc_dns := pc_dns b; pc_prev := pc_prev b; pc_valid := pc_valid b |}) in D.
  rewrite (decode_members_keep _ pc_name (key_is "name") step_name_keep _ _ _ D); [reflexivity|].
  intros k v I. destruct (key_is "name" k) eqn:K; [|reflexivity]. exfalso.
  assert (L : String.compare "name" k = Lt) by (eapply A2; exact I).
  destruct (H k v) as [->|L']; [apply in_or_app; right; now right|exact K|rewrite compare_refl in L; discriminate|].
  apply compare_gt in L'. congruence.
Qed.
Lemma decode_version d c x : ssorted d -> dec_plugin_conf (JObj d) = Some c -> sget "cniVersion" d = Some (JStr x) ->
  (forall k v, In (k, v) d -> key_is "cniVersion" k = true -> k = "cniVersion" \/ String.compare k "cniVersion" = Lt) -> pc_version c = x.
Proof.
  intros S D G H. destruct (split_sorted _ _ _ S G) as (l1 & l2 & E & _ & A2). subst d.
  unfold dec_plugin_conf, decode_struct in D. rewrite decode_members_app in D.
  destruct (decode_members plugin_conf_step plugin_conf_zero l1) as [b|]; [|discriminate].
  rewrite decode_members_cons in D. change (plugin_conf_step b "cniVersion" (JStr x)) with
    (Some {| pc_version := x; pc_name := pc_name b; pc_type := pc_type b; pc_caps := pc_caps b;
             pc_ipam := pc_ipam b; pc_dns := pc_dns b; pc_prev := pc_prev b; pc_valid := pc_valid b |}) in D.
  rewrite (decode_members_keep _ pc_version (key_is "cniVersion") step_version_keep _ _ _ D); [reflexivity|].
  intros k v I. destruct (key_is "cniVersion" k) eqn:K; [|reflexivity]. exfalso.
  assert (L : String.compare "cniVersion" k = Lt) by (eapply A2; exact I).
  destruct (H k v) as [->|L']; [apply in_or_app; right; now right|exact K|rewrite compare_refl in L; discriminate|].
  apply compare_gt in L'. congruence.
Qed.

(** Spellings matching "name" never sort after it: upper case comes first in ASCII. *)
Lemma fold_key_cons k C r : fold_key k = String C r -> C <> "S"%char -> C <> "K"%char ->
  exists c k', k = String c k' /\ upper c = C /\ fold_key k' = r.
Proof.
  intros H N1 N2. destruct k as [|c k]; [discriminate|]. exists c, k. split; [reflexivity|].
  destruct k as [|d k1]; [cbn [fold_key] in H; injection H as H1 H2; split; [assumption|]; now rewrite <- H2|].
  change (fold_key (String c (String d k1))) with
    (if Ascii.eqb c (chr 197) && Ascii.eqb d (chr 191) then String "S"%char (fold_key k1)
     else match k1 with
          | String e r2 => if Ascii.eqb c (chr 226) && Ascii.eqb d (chr 132) && Ascii.eqb e (chr 170)
                           then String "K"%char (fold_key r2) else String (upper c) (fold_key (String d k1))
          | EmptyString => String (upper c) (fold_key (String d k1))
          end) in H.
  destruct (Ascii.eqb c (chr 197) && Ascii.eqb d (chr 191)); [injection H as H1 H2; congruence|].
  destruct k1 as [|e k2]; [injection H as H1 H2; split; assumption|].
  destruct (Ascii.eqb c (chr 226) && Ascii.eqb d (chr 132) && Ascii.eqb e (chr 170)); [injection H as H1 H2; congruence|].
  injection H as H1 H2. split; assumption.
Qed.
Lemma fold_key_nil k : fold_key k = "" -> k = "".
Proof.
  destruct k as [|c k]; [trivial|]. destruct k as [|d k1]; [discriminate|]. cbn [fold_key].
  destruct (_ && _); [discriminate|]. destruct k1; [discriminate|]. destruct (_ && _); discriminate.
Qed.
Lemma upper_eq_cases c C : upper c = C -> is_upper C = true -> c = C \/ c = lower C.
Proof.
  intros <- U. unfold upper in *. destruct (is_lower c) eqn:L; [right|now left].
  unfold lower. rewrite U. unfold is_lower in L. rewrite andb_true_iff, !N.leb_le in L.
  apply code_inj. pose proof (code_lt_256 c). rewrite (code_chr (code c - 32)) by lia. rewrite code_chr by lia. lia.
Qed.
Lemma name_spellings k : key_is "name" k = true -> k = "name" \/ String.compare k "name" = Lt.
Proof.
  intros H. unfold key_is in H. apply String.eqb_eq in H. symmetry in H. change (fold_key "name") with "NAME" in H.
  apply fold_key_cons in H; [|discriminate|discriminate]. destruct H as (c1 & k1 & -> & U1 & H).
  apply fold_key_cons in H; [|discriminate|discriminate]. destruct H as (c2 & k2 & -> & U2 & H).
  apply fold_key_cons in H; [|discriminate|discriminate]. destruct H as (c3 & k3 & -> & U3 & H).
  apply fold_key_cons in H; [|discriminate|discriminate]. destruct H as (c4 & k4 & -> & U4 & H).
  apply fold_key_nil in H. subst k4.
  apply upper_eq_cases in U1; [|reflexivity]. apply upper_eq_cases in U2; [|reflexivity].
  apply upper_eq_cases in U3; [|reflexivity]. apply upper_eq_cases in U4; [|reflexivity].
  destruct U1 as [->| ->], U2 as [->| ->], U3 as [->| ->], U4 as [->| ->]; vm_compute; auto.
Qed.
Lemma type_spellings k : key_is "type" k = true -> k = "type" \/ String.compare k "type" = Lt.
Proof.
  intros H. unfold key_is in H. apply String.eqb_eq in H. symmetry in H. change (fold_key "type") with "TYPE" in H.
  apply fold_key_cons in H; [|discriminate|discriminate]. destruct H as (c1 & k1 & -> & U1 & H).
  apply fold_key_cons in H; [|discriminate|discriminate]. destruct H as (c2 & k2 & -> & U2 & H).
  apply fold_key_cons in H; [|discriminate|discriminate]. destruct H as (c3 & k3 & -> & U3 & H).
  apply fold_key_cons in H; [|discriminate|discriminate]. destruct H as (c4 & k4 & -> & U4 & H).
  apply fold_key_nil in H. subst k4.
  apply upper_eq_cases in U1; [|reflexivity]. apply upper_eq_cases in U2; [|reflexivity].
  apply upper_eq_cases in U3; [|reflexivity]. apply upper_eq_cases in U4; [|reflexivity].
  destruct U1 as [->| ->], U2 as [->| ->], U3 as [->| ->], U4 as [->| ->]; vm_compute; auto.
Qed.
