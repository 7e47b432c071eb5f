(** Version conversion of results. *)
From Coq Require Import String Ascii List Arith NArith ZArith Bool Lia.
From Verif Require Import Model.GoStr Model.Errors Model.Json Model.GoJson Model.NetIP Model.Types
  Spec.NameSpec Spec.TypesSpec Proofs.StrP Proofs.JsonRT Proofs.NetIPP Proofs.TypesP.
Import ListNotations.
Open Scope nat_scope.
Open Scope string_scope.

Lemma route_copy_id r : route_copy r = r. Proof. now destruct r. Qed.
Lemma dns_copy_id d : dns_copy d = d. Proof. now destruct d. Qed.
Lemma map_route_copy l : map route_copy l = l.
Proof. induction l as [|x l IH]; [reflexivity|]. cbn. now rewrite route_copy_id, IH. Qed.
Lemma map_opt_copy l : map (option_map route_copy) l = l.
Proof. induction l as [|[x|] l IH]; cbn; [reflexivity| |]; now rewrite ?route_copy_id, IH. Qed.
Lemma ipc020_copy_id c : ipc020_copy c = c.
Proof. destruct c. unfold ipc020_copy. cbn. now rewrite map_route_copy. Qed.
Lemma opt_ipc_copy o : option_map ipc020_copy o = o.
Proof. destruct o; cbn; now rewrite ?ipc020_copy_id. Qed.
Lemma map_deref_ok {A B} (f : A -> B) l : ~ In None l -> map_deref f l = Ok (map (option_map f) l).
Proof.
  induction l as [|[a|] l IH]; intros H; cbn [map_deref map option_map]; [reflexivity| |exfalso; apply H; now left].
  rewrite IH by (intros X; apply H; now right). reflexivity.
Qed.
Lemma map_deref_panic {A B} (f : A -> B) l : In None l -> map_deref f l = Panic.
Proof.
  induction l as [|[a|] l IH]; intros H; cbn [map_deref]; [easy| |reflexivity]. destruct H as [H|H]; [discriminate|]. now rewrite IH.
Qed.

(** ** What each converter computes *)
Definition with020 v (r : res020) := {| v2_version := v; v2_ip4 := v2_ip4 r; v2_ip6 := v2_ip6 r; v2_dns := v2_dns r |}.
Definition with040 v (r : res040) := {| v4_version := v; v4_interfaces := v4_interfaces r; v4_ips := v4_ips r; v4_routes := v4_routes r; v4_dns := v4_dns r |}.
Definition with100 v (r : res100) := {| v1_version := v; v1_interfaces := v1_interfaces r; v1_ips := v1_ips r; v1_routes := v1_routes r; v1_dns := v1_dns r |}.
Definition up_part (c : option ipc020) (v : string) : list (option ipc040) * list (option route) :=
  match c with Some c => ([Some (conv020_ipc c v)], map Some (i2_routes c)) | None => ([], []) end.
Definition up020 v (r : res020) : res040 :=
  {| v4_version := v; v4_interfaces := []; v4_ips := (fst (up_part (v2_ip4 r) "4") ++ fst (up_part (v2_ip6 r) "6"))%list;
     v4_routes := (snd (up_part (v2_ip4 r) "4") ++ snd (up_part (v2_ip6 r) "6"))%list; v4_dns := v2_dns r |}.
Definition up040 v (r : res040) : res100 :=
  {| v1_version := v; v1_interfaces := map (option_map conv_if_from040) (v4_interfaces r);
     v1_ips := map (option_map conv_ipc_from040) (v4_ips r); v1_routes := v4_routes r; v1_dns := v4_dns r |}.
Definition down100 v (r : res100) : res040 :=
  {| v4_version := v; v4_interfaces := map (option_map conv_if_to040) (v1_interfaces r);
     v4_ips := map (option_map conv_ipc_to040) (v1_ips r); v4_routes := v1_routes r; v4_dns := v1_dns r |}.
Lemma up_part_eq c v : match c with Some c => ([Some (conv020_ipc c v)], map (fun x => Some (route_copy x)) (i2_routes c)) | None => ([], []) end = up_part c v.
Proof. destruct c as [c|]; [|reflexivity]. unfold up_part. f_equal. apply map_ext. intros. now rewrite route_copy_id. Qed.
Lemma conv040_from02x_eq r v : conv040_from02x (R020 r) v = Ok (R040 (up020 v r)).
Proof.
  unfold conv040_from02x, up020. rewrite !up_part_eq, dns_copy_id. destruct (up_part (v2_ip4 r) "4"), (up_part (v2_ip6 r) "6"). reflexivity.
Qed.
Lemma conv040_internal_eq r v : conv040_internal (R040 r) v = Ok (R040 (with040 v r)).
Proof. unfold conv040_internal. now rewrite map_opt_copy, dns_copy_id. Qed.
Lemma conv010_eq r v : conv010 v v (R020 r) v = Ok (R020 (with020 v r)).
Proof. unfold conv010. rewrite String.eqb_refl. cbn [negb]. now rewrite !opt_ipc_copy, dns_copy_id. Qed.
Lemma conv100_from04x_eq r v : ~ In None (v4_interfaces r) -> ~ In None (v4_ips r) -> conv100_from04x (R040 r) v = Ok (R100 (up040 v r)).
Proof. intros A B. unfold conv100_from04x. rewrite !map_deref_ok by assumption. cbn [rbind]. now rewrite map_opt_copy, dns_copy_id. Qed.
Lemma conv100_to04x_eq r v : ~ In None (v1_interfaces r) -> ~ In None (v1_ips r) -> conv100_to04x (R100 r) v = Ok (R040 (down100 v r)).
Proof. intros A B. unfold conv100_to04x. rewrite !map_deref_ok by assumption. cbn [rbind]. now rewrite map_opt_copy, dns_copy_id. Qed.

(** ** Down to 0.2.0 *)
Definition bare (c : ipc040) : ipc020 := {| i2_ip := i4_address c; i2_gateway := i4_gateway c; i2_routes := [] |}.
Definition orelse {A} (a b : option A) : option A := match a with Some _ => a | None => b end.
Definition first_ip (v : string) (l : list (option ipc040)) : option ipc020 :=
  option_map bare (find (fun c => String.eqb (i4_version c) v) (somes l)).
Lemma orelse_none {A} (a : option A) : orelse a None = a. Proof. now destruct a. Qed.
Lemma to02x_ips_eq l : ~ In None l -> forall a b, to02x_ips l a b = Ok (orelse a (first_ip "4" l), orelse b (first_ip "6" l)).
Proof.
  induction l as [|[c|] l IH]; intros H a b; [cbn; now rewrite !orelse_none| |exfalso; apply H; now left].
  assert (H' : ~ In None l) by (intros X; apply H; now right). specialize (IH H').
  cbn [to02x_ips]. fold (bare c). unfold first_ip in *. cbn [somes find].
  destruct (String.eqb_spec (i4_version c) "4") as [E|E].
  - rewrite E. change (String.eqb "4" "6") with false. cbn [option_map]. destruct a as [a|]; cbn [is_some negb andb].
    + destruct b as [b|]; [reflexivity|]. rewrite IH. reflexivity.
    + destruct b as [b|]; [reflexivity|]. rewrite IH. reflexivity.
  - cbn [andb]. destruct (String.eqb_spec (i4_version c) "6") as [E6|E6].
    + cbn [option_map]. destruct b as [b|]; cbn [is_some negb andb].
      * destruct a as [a|]; [reflexivity|]. rewrite IH. reflexivity.
      * destruct a as [a|]; [reflexivity|]. rewrite IH. reflexivity.
    + cbn [andb]. destruct a as [a|], b as [b|]; try reflexivity; rewrite IH; reflexivity.
Qed.
Definition more (rs : list route) (c : ipc020) : ipc020 :=
  {| i2_ip := i2_ip c; i2_gateway := i2_gateway c; i2_routes := (i2_routes c ++ map short rs)%list |}.
Definition routes4 (l : list (option route)) := filter (fun r => is4 (n_ip (r_dst r))) (somes l).
Definition routes6 (l : list (option route)) := filter (fun r => negb (is4 (n_ip (r_dst r)))) (somes l).
Lemma more_nil c : more [] c = c.
Proof. destruct c. unfold more. cbn. now rewrite app_nil_r. Qed.
Lemma more_cons r rs c : more rs (add_route c (short r)) = more (r :: rs) c.
Proof. unfold more, add_route. cbn. now rewrite <- app_assoc. Qed.
Lemma to02x_routes_eq l : ~ In None l -> forall a b, to02x_routes l a b = Ok (option_map (more (routes4 l)) a, option_map (more (routes6 l)) b).
Proof.
  induction l as [|[r|] l IH]; intros H a b.
  - cbn. destruct a, b; cbn; now rewrite ?more_nil.
  - assert (H' : ~ In None l) by (intros X; apply H; now right). specialize (IH H'). cbn [to02x_routes]. unfold routes4, routes6 in *. cbn [somes filter].
    change (short_route r) with (short r). destruct (is4 (n_ip (r_dst r))); cbn [negb].
    + destruct a as [a|]; rewrite IH; cbn [option_map]; now rewrite ?more_cons.
    + destruct b as [b|]; rewrite IH; cbn [option_map]; now rewrite ?more_cons.
  - exfalso. apply H. now left.
Qed.
Lemma find_map {A B} (p : B -> bool) (f : A -> B) l : find p (map f l) = option_map f (find (fun a => p (f a)) l).
Proof. induction l as [|a l IH]; [reflexivity|]. cbn. destruct (p (f a)); [reflexivity|exact IH]. Qed.
Definition down040 v (r : res040) : res020 :=
  {| v2_version := v; v2_ip4 := old_form "4" (R040 r); v2_ip6 := old_form "6" (R040 r); v2_dns := v4_dns r |}.
Lemma fam4 r : String.eqb (family (n_ip (r_dst r))) "4" = is4 (n_ip (r_dst r)).
Proof. unfold family. destruct (is4 (n_ip (r_dst r))); reflexivity. Qed.
Lemma fam6 r : String.eqb (family (n_ip (r_dst r))) "6" = negb (is4 (n_ip (r_dst r))).
Proof. unfold family. destruct (is4 (n_ip (r_dst r))); reflexivity. Qed.
Lemma old_form4 r : option_map (more (routes4 (v4_routes r))) (first_ip "4" (v4_ips r)) = old_form "4" (R040 r).
Proof.
  unfold old_form, first_ip, routes4. cbn [addresses routes_of]. rewrite find_map. cbn [fam fst snd].
  destruct (find _ (somes (v4_ips r))); [|reflexivity]. cbn. unfold more. cbn. do 3 f_equal. apply filter_ext. intros x. symmetry. apply fam4.
Qed.
Lemma old_form6 r : option_map (more (routes6 (v4_routes r))) (first_ip "6" (v4_ips r)) = old_form "6" (R040 r).
Proof.
  unfold old_form, first_ip, routes6. cbn [addresses routes_of]. rewrite find_map. cbn [fam fst snd].
  destruct (find _ (somes (v4_ips r))); [|reflexivity]. cbn. unfold more. cbn. do 3 f_equal. apply filter_ext. intros x. symmetry. apply fam6.
Qed.
Lemma conv040_to02x_eq r v : ~ In None (v4_ips r) -> ~ In None (v4_routes r) ->
  conv040_to02x (R040 r) v =
    match old_form "4" (R040 r), old_form "6" (R040 r) with
    | None, None => Err (EMsg "cannot convert: no valid IP addresses")
    | _, _ => Ok (R020 (down040 v r))
    end.
Proof.
  intros A B. unfold conv040_to02x. rewrite to02x_ips_eq by assumption. cbn [rbind orelse].
  rewrite to02x_routes_eq by assumption. cbn [rbind]. rewrite old_form4, old_form6, dns_copy_id. reflexivity.
Qed.
Lemma find_none_iff {A} (p : A -> bool) l : find p l = None <-> forall x, In x l -> p x = false.
Proof.
  split; [apply find_none|]. intros H. destruct (find p l) as [a|] eqn:E; [|reflexivity]. apply find_some in E as [I E]. rewrite (H a I) in E. discriminate.
Qed.
Lemma unusable r : old_form "4" r = None -> old_form "6" r = None -> ~ has_usable_ip r.
Proof.
  unfold old_form. intros A B (x & I & F). destruct (find (fun x => String.eqb (fam x) "4") (addresses r)) eqn:E4; [discriminate|].
  destruct (find (fun x => String.eqb (fam x) "6") (addresses r)) eqn:E6; [discriminate|]. rewrite find_none_iff in E4, E6.
  specialize (E4 x I). specialize (E6 x I). cbn beta in *. destruct F as [F|F]; rewrite F in *; discriminate.
Qed.
Lemma usable_form r v x : (v = "4" \/ v = "6") -> old_form v r = Some x -> has_usable_ip r.
Proof.
  unfold old_form. intros V H. destruct (find (fun x => String.eqb (fam x) v) (addresses r)) as [y|] eqn:E; [|discriminate].
  apply find_some in E as [I E]. apply String.eqb_eq in E. exists y. split; [exact I|]. rewrite E. exact V.
Qed.

(** ** Every pair of versions *)
Ltac converter :=
  match goal with |- context [find_converter converters ?a ?b] =>
    let x := eval vm_compute in (find_converter converters a b) in
    replace (find_converter converters a b) with x by (vm_compute; reflexivity)
  end; cbn [c_fn].
Ltac literals :=
  repeat match goal with |- context [String.eqb ?a ?b] =>
    let v := eval vm_compute in (String.eqb a b) in
    match v with true => change (String.eqb a b) with true | false => change (String.eqb a b) with false end
  end; cbv iota beta.
Ltac go := unfold get_as_version, convert, set_version; cbn [result_version v2_version v4_version v1_version]; literals;
  cbn [convert_fuel result_version v2_version v4_version v1_version]; literals;
  try reflexivity.
Definition v02 : list string := ["0.1.0"; "0.2.0"].
Definition v04 : list string := ["0.3.0"; "0.3.1"; "0.4.0"].
Definition v10 : list string := ["1.0.0"; "1.1.0"].
Ltac cases H := cbn [In v02 v04 v10] in H; repeat (destruct H as [H|H]; [subst|]); [..|destruct H].

Lemma gv_020_020 r v : In (v2_version r) v02 -> In v v02 -> get_as_version (R020 r) v = Ok (R020 (with020 v r)).
Proof.
  destruct r as [w a b d]. cbn [v2_version]. intros A B. cases A; cases B; go; converter; now rewrite conv010_eq.
Qed.
Lemma gv_020_040 r v : In (v2_version r) v02 -> In v v04 -> get_as_version (R020 r) v = Ok (R040 (up020 v r)).
Proof.
  destruct r as [w a b d]. cbn [v2_version]. intros A B. cases A; cases B; go; converter; now rewrite conv040_from02x_eq.
Qed.
Lemma up_part_none c v : ~ In None (fst (up_part c v)) /\ ~ In None (snd (up_part c v)).
Proof.
  destruct c as [c|]; cbn [up_part fst snd]; split; try easy; [now intros [H|[]]|].
  intros H. apply in_map_iff in H as (x & E & _). discriminate.
Qed.
Lemma none_app {A} (a b : list (option A)) : ~ In None a -> ~ In None b -> ~ In None (a ++ b)%list.
Proof. rewrite in_app_iff. tauto. Qed.
Lemma up020_complete v r : complete (R040 (up020 v r)).
Proof.
  destruct (up_part_none (v2_ip4 r) "4"), (up_part_none (v2_ip6 r) "6"). cbn [complete up020 v4_interfaces v4_ips v4_routes].
  split; [easy|]. split; now apply none_app.
Qed.
Lemma gv_020_100 r v : In (v2_version r) v02 -> In v v10 -> get_as_version (R020 r) v = Ok (R100 (up040 v (up020 "0.4.0" r))).
Proof.
  destruct r as [w a b d]. cbn [v2_version]. intros A B. destruct (up020_complete "0.4.0" {| v2_version := w; v2_ip4 := a; v2_ip6 := b; v2_dns := d |}) as (P & Q & _).
  cases A; cases B; go; converter; converter; rewrite conv040_from02x_eq; cbn [rbind]; now rewrite conv100_from04x_eq.
Qed.
Lemma gv_040_040 r v : In (v4_version r) v04 -> In v v04 -> get_as_version (R040 r) v = Ok (R040 (with040 v r)).
Proof.
  destruct r as [w a b c d]. cbn [v4_version]. intros A B. cases A; cases B; go; converter; now rewrite conv040_internal_eq.
Qed.
Lemma gv_040_020 r v : In (v4_version r) v04 -> In v v02 -> get_as_version (R040 r) v = conv040_to02x (R040 r) v.
Proof.
  destruct r as [w a b c d]. cbn [v4_version]. intros A B. cases A; cases B; go; converter; reflexivity.
Qed.
Lemma gv_040_100 r v : In (v4_version r) v04 -> In v v10 -> get_as_version (R040 r) v = conv100_from04x (R040 r) v.
Proof.
  destruct r as [w a b c d]. cbn [v4_version]. intros A B. cases A; cases B; go; converter; reflexivity.
Qed.
Lemma gv_100_100 r v : In (v1_version r) v10 -> In v v10 -> get_as_version (R100 r) v = Ok (R100 (with100 v r)).
Proof.
  destruct r as [w a b c d]. cbn [v1_version]. intros A B. cases A; cases B; go; converter; reflexivity.
Qed.
Lemma gv_100_040 r v : In (v1_version r) v10 -> In v v04 -> get_as_version (R100 r) v = conv100_to04x (R100 r) v.
Proof.
  destruct r as [w a b c d]. cbn [v1_version]. intros A B. cases A; cases B; go; converter; reflexivity.
Qed.
Lemma gv_100_020 r v : In (v1_version r) v10 -> In v v02 ->
  get_as_version (R100 r) v = rbind (conv100_to04x (R100 r) "0.4.0") (fun x => conv040_to02x x v).
Proof.
  destruct r as [w a b c d]. cbn [v1_version]. intros A B.
  unfold conv100_to04x; destruct (map_deref conv_if_to040 a) eqn:E1; cbn [rbind v1_interfaces]; rewrite ?E1; cbn [rbind v1_ips];
    [destruct (map_deref conv_ipc_to040 b) eqn:E2; cbn [rbind]|..];
  (cases A; cases B; go; converter; unfold conv100_to04x; cbn [v1_interfaces v1_ips]; rewrite E1; cbn [rbind]; rewrite ?E2; cbn [rbind]; try reflexivity;
   go; converter; reflexivity).
Qed.
Lemma somes_map {A B} (f : A -> B) l : somes (map (option_map f) l) = map f (somes l).
Proof. induction l as [|[a|] l IH]; cbn; now rewrite ?IH. Qed.
Lemma map_no_none {A B} (f : A -> B) l : ~ In None l -> ~ In None (map (option_map f) l).
Proof. intros H X. apply H. apply in_map_iff in X as ([a|] & E & I); [discriminate|exact I]. Qed.
Lemma down100_addresses v r : addresses (R040 (down100 v r)) = addresses (R100 r).
Proof. cbn [addresses down100 v4_ips]. rewrite somes_map, map_map. apply map_ext. intros c. reflexivity. Qed.
