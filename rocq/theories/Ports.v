(** The local ports of UDP handles. *)
From Verif Require Export Refusals.
From Verif Require Import ExecFacts Literal.

(** a handle that was never bound has the port its socket number gives it *)
Definition auto_port (x : handle) : Prop := match x with HUdp u => u_port u = 49849 + index (u_socket u) | _ => True end.
Definition unbound (bound : nat -> Prop) (a : History.app) : Prop :=
  forall h x, lookup h (handles a) = Some x -> bound h \/ auto_port x.
Definition binds (h : nat) (o : op) : Prop := match o with OpUdpBind k _ | OpUdpSetPort k _ => k = h | _ => False end.

Lemma free_of_room j l : Forall (roomy j 0) l.
Proof. apply Forall_forall. intros [b ad got [[]|e]|] _; cbn; auto. intros _ _. lia. Qed.
Definition as_before (u : UdpSocket) (v : UdpSocket) : Prop := u_port v = u_port u /\ u_socket v = u_socket u.
Lemma ne_dest u r w : ne 0 0 w (fun _ x => as_before u (fst x)) (udp_set_destination u r).
Proof.
  unfold udp_set_destination. destruct (match u_dest u with Some _ => _ | None => _ end); [|split; reflexivity].
  eapply ne_try; [apply ne_any|intros ? ? _|intros; split; reflexivity]. eapply ne_try; [apply ne_any|intros ? ? _|intros; split; reflexivity]. split; reflexivity.
Qed.
Lemma ne_connect u r w : ne 0 0 w (fun _ x => as_before u (fst x)) (udp_connect u r).
Proof.
  unfold udp_connect. destruct r as [r|]; [|split; reflexivity].
  eapply ne_try; [apply ne_any|intros ? ? _|intros; split; reflexivity]. apply ne_dest.
Qed.
Lemma ne_send_to fuel u r d w : ne 0 0 w (fun _ x => as_before u (fst x)) (udp_send_to fuel u r d).
Proof.
  unfold udp_send_to. destruct r as [r|]; [|split; reflexivity]. unfold udp_send_to_v4. eapply ne_bind; [apply ne_dest|].
  intros w' [v [x|e]] H; cbn [fst snd] in *; [|exact H]. eapply ne_bind; [apply ne_any|]. intros ? ? _. exact H.
Qed.

Lemma unbound_grant b a d x : pool_inv a -> auto_port x -> unbound b a -> unbound b (grant a d x).
Proof.
  intros PI A H h y. cbn [grant handles]. rewrite lookup_app. destruct (lookup h (handles a)) eqn:L; [intros [= <-]; eauto|].
  cbn [lookup]. destruct (Nat.eqb _ h); [intros [= <-]; auto|discriminate].
Qed.
Lemma unbound_consume b a d k : unbound b a -> unbound b (consume a d k).
Proof. intros H h x L. cbn [consume handles] in L. apply lookup_remove in L. eauto. Qed.
Lemma unbound_put b a k v : (b k \/ auto_port v) -> unbound b a -> unbound b (put a k v).
Proof. intros A H h x L. cbn [put handles] in L. apply lookup_update in L as [(-> & -> & _)|L]; eauto. Qed.
Lemma unbound_same b a d : unbound b a -> unbound b (mkApp d (handles a) (fresh a)). Proof. intros H. exact H. Qed.
Lemma unbound_step (b : nat -> Prop) fuel a o tr a' r : (forall h, binds h o -> b h) -> pool_inv a ->
  exec (step fuel a o) tr (Done (a', r)) -> unbound b a -> unbound b a'.
Proof.
  intros B PI X H.
  assert (R : forall x : History.app * out, exec (Ret x) tr (Done (a', r)) -> x = (a', r)).
  { intros x Y. apply exec_Ret_inv in Y as [_ [Y|Y]]; [now injection Y as ->|discriminate]. }
  assert (K : forall k u v, lookup k (handles a) = Some (HUdp u) -> as_before u v -> b k \/ auto_port (HUdp v)).
  { intros k u v L [E1 E2]. destruct (H _ _ L) as [Hb|Ha]; [now left|right]. cbn [auto_port] in *. now rewrite E1, E2. }
  destruct o; cbn [step] in X.
  1: destruct (take_socket (dev a)) as [d [s|]]; apply R in X; injection X as <- _; [apply (unbound_grant b a d (HSock s))|]; auto; exact I.
  2: destruct (tcp_socket (dev a)) as [d [s|]]; apply R in X; injection X as <- _; [apply (unbound_grant b a d (HTcp s))|]; auto; exact I.
  6: { unfold udp_socket in X. destruct (take_socket (dev a)) as [d [s|]]; apply R in X; injection X as <- _; [apply (unbound_grant b a d (HUdp (udp_new s)))|]; auto. reflexivity. }
  all: try match type of X with context [lookup ?k _] => destruct (lookup k (handles a)) as [[s|t|u]|] eqn:L end.
  all: try (apply R in X; injection X as <- _; auto using unbound_consume, unbound_same; fail).
  1: destruct (release_socket _ _); [apply R in X; injection X as <- _; auto using unbound_consume|inversion X].
  all: apply exec_bind_done in X as (tr1 & x & tr2 & -> & X1 & X2);
    apply exec_Ret_inv in X2 as [_ [X2|X2]]; [injection X2 as -> _|discriminate]; auto using unbound_consume.
  - apply unbound_put; [|exact H]. eapply K; [exact L|]. exact (ne_exec 0 0 _ _ _ _ X1 false (ne_connect u remote false) (free_of_room _ _)).
  - apply unbound_put; [|exact H]. left. apply B. reflexivity.
  - apply unbound_put; [|exact H]. eapply K; [exact L|]. exact (ne_exec 0 0 _ _ _ _ X1 false (ne_send_to fuel u remote d false) (free_of_room _ _)).
  - apply unbound_put; [|exact H]. left. apply B. reflexivity.
Qed.
Lemma unbound_ops (b : nat -> Prop) fuel : forall ops a tr a' outs, (forall h o, In o ops -> binds h o -> b h) -> pool_inv a ->
  exec (run_ops fuel a ops) tr (Done (a', outs)) -> unbound b a -> unbound b a'.
Proof.
  induction ops as [|o ops IH]; intros a tr a' outs B PI X H.
  - cbn in X. apply exec_Ret_inv in X as [-> [[= -> ->]|E]]; [exact H|discriminate].
  - apply exec_run_ops_cons in X as (tr1 & tr2 & [a1 r] & [a2 rs] & -> & X1 & X2 & [= -> ->]). cbn [fst snd] in *.
    refine (IH a1 tr2 a2 rs _ (proj1 (exec_step_post _ _ _ _ _ PI X1)) X2 _); [intros h q Hq; apply B; now right|].
    refine (unbound_step b fuel a o tr1 a1 r _ PI X1 H). intros h. apply B. now left.
Qed.
