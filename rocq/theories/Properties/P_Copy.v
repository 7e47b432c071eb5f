(** C63: the Copy methods of the result types. *)
From Coq Require Import String List Bool Arith NArith ZArith Lia.
From Verif Require Import Model.GoStr Model.Errors Model.NetIP Model.Types Model.Heap Model.Copies Spec.AliasSpec Spec.CopySpec
  Proofs.StrP Proofs.HeapP Proofs.ConvP.
Import ListNotations.
Open Scope nat_scope.
Open Scope string_scope.

Lemma read_keep {A} (rd : reader A) h h2 ls b o d : good rd -> rd h = Some (b, o, d) -> writes ls h h2 -> (forall l, In l o \/ In l d -> ~ In l ls) -> rd h2 = Some (b, o, d).
Proof.
  intros G R W D. destruct (G _ _ _ _ R) as (A1 & A2 & K). apply K. intros l I. apply W; [|now apply D].
  apply nth_error_Some. destruct I as [I|I]; [destruct (A1 l I) as (c & -> & _)|destruct (A2 l I) as (c & ->)]; discriminate.
Qed.
Lemma own_not_bytes {A B} (r1 : reader A) (r2 : reader B) h b1 o1 d1 b2 o2 d2 l : good r1 -> good r2 ->
  r1 h = Some (b1, o1, d1) -> r2 h = Some (b2, o2, d2) -> In l o1 -> In l d2 -> False.
Proof.
  intros G1 G2 R1 R2 I J. destruct (G1 _ _ _ _ R1) as (A1 & _). destruct (G2 _ _ _ _ R2) as (_ & B' & _).
  destruct (A1 l I) as (c & N & C). destruct (B' l J) as (x & N'). rewrite N in N'. assert (c = CBytes x) by congruence. subst c. discriminate C.
Qed.
Lemma sim_copies {A B} (rd : A -> reader B) (m : A -> hm A) : (forall p, good (rd p)) ->
  (forall n ad h p b o d, n <= Datatypes.length h -> rd p h = Some (b, o, d) -> incl d ad -> sim n h (m p) rd (Ok b) ad) -> copies rd m.
Proof.
  intros G S h p b own addr R. specialize (S (Datatypes.length h) addr h p b own addr (le_n _) R (incl_refl _)).
  destruct S as (h' & q & own' & addr' & E & X & Q & AB & I). pose proof (read_ext _ _ _ _ _ (G p) R X) as P'.
  exists h', q, own', addr'. split; [exact E|]. split; [exact Q|]. split; [exact P'|]. split; [exact I|].
  pose proof (read_below _ _ _ _ _ _ (G p) R) as BL. rewrite Forall_forall in BL. unfold above in AB. rewrite Forall_forall in AB.
  split; intros h2 W.
  - eapply read_keep; [apply G|exact P'|exact W|]. intros l [J|J] K; specialize (AB _ K); specialize (BL l); rewrite in_app_iff in BL; intuition lia.
  - eapply read_keep; [apply G|exact Q|exact W|]. intros l [J|J] K.
    + specialize (AB _ J). specialize (BL l). rewrite in_app_iff in BL. intuition lia.
    + exact (own_not_bytes _ _ _ _ _ _ _ _ _ l (G p) (G q) P' Q K J).
Qed.
Lemma sim_if1 n ad h p b o d : n <= Datatypes.length h -> rd_if1 p h = Some (b, o, d) -> incl d ad -> sim n h (copy_if1_at p) rd_if1 (Ok b) ad.
Proof. intros N E I. unfold rd_if1 in E. apart. unfold copy_if1_at. eapply sim_pure; [eassumption|]. cbv iota. alloced n. Qed.
Lemma sim_ipc1 n ad h p b o d : n <= Datatypes.length h -> rd_ipc1 p h = Some (b, o, d) -> incl d ad -> sim n h (copy_ipc1_at p) rd_ipc1 (Ok b) ad.
Proof. intros N E I. unfold rd_ipc1 in E. apart. incls. unfold copy_ipc1_at. eapply sim_pure; [eassumption|]. cbv iota. next sim_int. alloced n. Qed.

Theorem C63_dns : copies rd_dns copy_dns.
Proof. apply sim_copies; [auto with good|]. intros n ad h p b o d N R I. pose proof (sim_dns n ad h p b o d N R I) as S. now rewrite dns_copy_id in S. Qed.
Theorem C63_route : copies rd_route_at copy_route_at.
Proof. apply sim_copies; [auto with good|]. intros n ad h p b o d N R I. pose proof (sim_route_at n ad h p b o d N R I) as S. now rewrite route_copy_id in S. Qed.
Theorem C63_ipconfig_020 : copies rd_ipc2 copy_ipc2_at.
Proof. apply sim_copies; [auto with good|]. intros n ad h p b o d N R I. pose proof (sim_ipc2 n ad h p b o d N R I) as S. now rewrite ipc020_copy_id in S. Qed.
Theorem C63_interface_040 : copies rd_if4 copy_if4_at.
Proof. apply sim_copies; [auto with good|]. exact sim_if4. Qed.
Theorem C63_ipconfig_040 : copies rd_ipc4 copy_ipc4_at.
Proof. apply sim_copies; [auto with good|]. exact sim_ipc4. Qed.
Theorem C63_interface_100 : copies rd_if1 copy_if1_at.
Proof. apply sim_copies; [auto with good|]. exact sim_if1. Qed.
Theorem C63_ipconfig_100 : copies rd_ipc1 copy_ipc1_at.
Proof. apply sim_copies; [auto with good|]. exact sim_ipc1. Qed.
(** A nil receiver gives nil. *)
Theorem C63_nil : forall f h, if_not_nil f None h = Ok (h, None).
Proof. reflexivity. Qed.
(** Full independence fails: the bytes of addresses are the same arrays.  Writing through the
    copy's gateway changes the original's. *)
Definition X_heap : heap :=
  [CBytes [10%N; 0%N; 0%N; 0%N]; CBytes [255%N; 0%N; 0%N; 0%N]; CBytes [10%N; 0%N; 0%N; 1%N]; CInt 254;
   CRoute {| hr_dst := {| hn_ip := Some 0; hn_mask := Some 1 |}; hr_gw := Some 2; hr_mtu := 1500; hr_advmss := 0; hr_priority := 0; hr_table := Some 3; hr_scope := None |}].
Theorem C63_addresses_refuted : exists h p b own addr h' q own' addr' h2,
  rd_route_at p h = Some (b, own, addr) /\ copy_route_at p h = Ok (h', q) /\ rd_route_at q h' = Some (b, own', addr') /\
  writes addr' h' h2 /\ rd_route_at p h2 <> Some (b, own, addr).
Proof.
  exists X_heap, 4. destruct (rd_route_at 4 X_heap) as [[[b own] addr]|] eqn:R; [|vm_compute in R; discriminate R].
  destruct (C63_route X_heap 4 b own addr R) as (h' & q & own' & addr' & E & Q & P & I & _).
  exists b, own, addr, h', q, own', addr', (upd 2 (CBytes [10%N; 0%N; 0%N; 9%N]) h').
  split; [reflexivity|]. split; [exact E|]. split; [exact Q|].
  vm_compute in E. assert (H' : h' = match copy_route_at 4 X_heap with Ok (x, _) => x | _ => [] end) by (vm_compute; congruence).
  assert (Q' : q = 6) by congruence. clear E. rewrite H' in *. rewrite Q' in *. vm_compute in Q. split.
  - assert (AD : addr' = [0; 1; 2]) by congruence. rewrite AD. intros l L N. clear Q P I R. vm_compute in L.
    do 3 (destruct l as [|l]; [exfalso; apply N; cbn; tauto|]). do 4 (destruct l as [|l]; [vm_compute; reflexivity|]). lia.
  - vm_compute in R. vm_compute. intros X. clear Q P I. congruence.
Qed.
Example C63_nonvacuous : exists b own addr, rd_route_at 4 X_heap = Some (b, own, addr) /\ r_table b = Some 254%Z /\ addr <> [].
Proof. eexists _, _, _. split; [vm_compute; reflexivity|]. split; [reflexivity|discriminate]. Qed.

Print Assumptions C63_dns.
Print Assumptions C63_route.
Print Assumptions C63_ipconfig_020.
Print Assumptions C63_ipconfig_040.
Print Assumptions C63_ipconfig_100.
Print Assumptions C63_addresses_refuted.
