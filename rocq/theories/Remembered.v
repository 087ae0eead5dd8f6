(** The destination a UDP handle remembers and the one the chip has. *)
From Verif Require Export SockRegs UdpSession.
From Verif Require Import Datasheet.

Lemma other_socket a h h' x y : pool_inv a -> h <> h' -> lookup h (handles a) = Some x -> lookup h' (handles a) = Some y ->
  index (handle_socket x) <> index (handle_socket y).
Proof.
  intros I Hn Lx Ly E. pose proof (pi_idx _ I) as ND. apply lookup_in in Lx, Ly. unfold idxs in ND.
  revert ND Lx Ly. generalize (handles a). induction l as [|[k z] l IH]; intros ND Lx Ly; [destruct Lx|]. cbn [map] in ND. inversion ND as [|? ? N1 N2]; subst.
  destruct Lx as [Lx|Lx], Ly as [Ly|Ly].
  - injection Lx as -> ->. injection Ly as -> ->. contradiction.
  - injection Lx as -> ->. apply N1. apply in_map_iff. exists (h', y). split; [symmetry; exact E|exact Ly].
  - injection Ly as -> ->. apply N1. apply in_map_iff. exists (h, x). split; [exact E|exact Lx].
  - auto.
Qed.
Lemma lookup_snoc_inv h l k x y : lookup h (l ++ [(k, x)]) = Some y -> lookup h l = Some y \/ y = x.
Proof.
  induction l as [|[j z] l IH]; cbn [lookup List.app]; [destruct (Nat.eqb k h); [intros [= <-]; now right|discriminate]|].
  destruct (Nat.eqb j h); [intros H; now left|exact IH].
Qed.
Lemma lookup_removed h l : lookup h (History.remove h l) = None.
Proof.
  induction l as [|[j z] l IH]; cbn; [reflexivity|]. destruct (Nat.eqb j h) eqn:E; [exact IH|]. cbn. now rewrite E.
Qed.

(** ** What the calls answer, whatever the bus does *)
Definition yields {A} (G : A -> Prop) (p : prog A) : Prop := ptree (fun _ _ => True) (fun _ => True) G p.
Lemma yields_any {A} (p : prog A) : yields (fun _ => True) p.
Proof. unfold yields. induction p as [a|w| |b a d k IH|b a d k IH]; cbn [ptree]; auto. Qed.
Lemma yields_try {A E R} (G : R -> Prop) (p : prog (res A E)) h k : (forall a, yields G (k a)) -> (forall e, G (h e)) -> yields G (try_ p h k).
Proof. intros H1 H2. unfold try_. eapply ptree_bind; [apply yields_any|]. intros [a|e] _; [apply H1|apply H2]. Qed.
Lemma yields_bind {A B} (G : A -> Prop) (G' : B -> Prop) p (f : A -> prog B) : yields G p -> (forall a, G a -> yields G' (f a)) -> yields G' (bind p f).
Proof. apply ptree_bind. Qed.
Lemma yields_run {A} e (G : A -> Prop) p s x s' : yields G p -> run e p s = (Done x, s') -> G x.
Proof. intros Y R. pose proof (run_ptree e _ _ _ _ Y s) as H. rewrite R in H. exact H. Qed.

Lemma ye_set_port s d p q : yields (fun r => u_socket (fst r) = s /\ u_dest (fst r) = d) (udp_set_port (mkUdp s d p) q).
Proof. unfold udp_set_port. cbv zeta. apply yields_try; [intros _|intros er]; cbn; auto. Qed.
Lemma ye_bind s d p q : yields (fun r => u_socket (fst r) = s /\ u_dest (fst r) = d) (udp_bind (mkUdp s d p) q).
Proof.
  unfold udp_bind. eapply yields_bind; [apply ye_set_port|]. intros [u' [[]|er]] H; cbn [fst snd] in *; [|exact H].
  apply yields_try; [intros _; exact H|intros er; exact H].
Qed.
(** after a call that reports no bus error the handle remembers the destination given *)
Lemma ye_dest s d p q : yields (fun r => match snd r with Ok _ => fst r = mkUdp s (Some q) p | Err (UOther _) => True | Err _ => False end)
  (udp_set_destination (mkUdp s d p) q).
Proof.
  unfold udp_set_destination. cbn [u_socket u_dest u_port].
  assert (A : yields (fun r => match snd r with Ok _ => fst r = mkUdp s (Some q) p | Err (UOther _) => True | Err _ => False end)
    (try a <- set_destination_ip s (a_ip q) else (fun e => (mkUdp s d p, Err (UOther e))) ;;
     try b <- set_destination_port s (a_port q) else (fun e => (mkUdp s d p, Err (UOther e))) ;; Ret (mkUdp s (Some q) p, Ok tt))).
  { apply yields_try; [intros _|intros er; exact Logic.I]. apply yields_try; [intros _; reflexivity|intros er; exact Logic.I]. }
  destruct d as [d|]; [|exact A]. destruct (addr4_eqb d q) eqn:E; cbn [negb]; [|exact A]. apply addr4_eqb_eq in E. subst d. reflexivity.
Qed.
Lemma ye_connect s d p q : yields (fun r => match snd r with Ok _ => fst r = mkUdp s (Some q) p | Err (UOther _) => True | Err _ => False end)
  (udp_connect (mkUdp s d p) (V4 q)).
Proof. unfold udp_connect. apply yields_try; [intros _; apply ye_dest|intros er; exact Logic.I]. Qed.
Lemma ye_send_to fuel s d p q b : yields (fun r => match snd r with Err (NbOther (UOther _)) => True | _ => fst r = mkUdp s (Some q) p end)
  (udp_send_to fuel (mkUdp s d p) (V4 q) b).
Proof.
  unfold udp_send_to, udp_send_to_v4. eapply yields_bind; [apply ye_dest|]. intros [u' [[]|er]] H; cbn [fst snd] in *.
  - subst u'. eapply yields_bind; [apply yields_any|]. intros r _. cbn. destruct r as [?|[|[]]]; auto.
  - destruct er; try contradiction. exact Logic.I.
Qed.

(** ** One call *)
Definition aim_fault (h : nat) (o : op) (r : out) : Prop :=
  match o, r with
  | OpUdpConnect k _, RUdpUnit (Err (UOther _)) => k = h
  | OpUdpSendTo k _ _, RUdpSend (Err (NbOther (UOther _))) => k = h
  | _, _ => False
  end.
Definition port_ok (h : nat) (o : op) : Prop :=
  match o with
  | OpUdpConnect k (V4 r) | OpUdpSendTo k (V4 r) _ => k = h -> a_port r < 65536
  | _ => True
  end.
Definition remembers (h : nat) (a : History.app) (s : sys) : Prop :=
  forall u, lookup h (handles a) = Some (HUdp u) -> coherent (u_dest u) (regs (socks (s_chip s) (index (u_socket u)))).

Lemma dest_kept j R s s' i d : SockRegs.kept j R s s' -> (i <> j \/ (forall x, aims x = true -> R x = false)) ->
  coherent d (regs (socks (s_chip s) i)) -> coherent d (regs (socks (s_chip s') i)).
Proof.
  intros K H. apply coherent_ext. intros x Hx.
  assert (A : aims x = true).
  { unfold aims, span, Sn_DIPR, Sn_DPORT. destruct (N.ltb_spec x 16); [apply orb_true_intro; left|apply orb_true_intro; right]; apply andb_true_intro; split;
      try apply N.leb_le; try apply N.ltb_lt; lia. }
  apply K; [|destruct H as [H|H]; [now left|right; now apply H]].
  assert (x = 12 \/ x = 13 \/ x = 14 \/ x = 15 \/ x = 16 \/ x = 17) as [->|[->|[->|[->|[->| ->]]]]] by lia; reflexivity.
Qed.
Lemma aims_opens x : aims x = true -> opens x = false.
Proof.
  unfold aims, opens, span, Sn_DIPR, Sn_DPORT, Sn_MR, Sn_IMR, Sn_PORT. intros H. apply orb_prop in H.
  destruct (N.eqb_spec x 0), (N.eqb_spec x 44), (N.leb_spec 4 x), (N.ltb_spec x (4 + 2)); cbn [andb orb]; try reflexivity;
    destruct H as [H|H]; apply andb_prop in H as [T1 T2]; apply N.leb_le in T1; apply N.ltb_lt in T2; lia.
Qed.
Lemma aimed_regs j r f f' : a_port r < 65536 -> same f' (SockRegs.aimed j r f) -> dest_regs (f' j) r.
Proof.
  intros H S. destruct r as [[a b c d] p]. cbn [a_port] in H. unfold dest_regs, get16. rewrite !S. unfold SockRegs.aimed, setr. rewrite N.eqb_refl. cbn [a_ip a_port].
  split; [reflexivity|]. pose proof (from_be_to_be p H) as T. unfold to_be in T. rewrite from_be_2 in T. exact T.
Qed.
Lemma redirected_regs j d r f f' : a_port r < 65536 -> coherent d (f j) -> same f' (redirected j d r f) -> dest_regs (f' j) r.
Proof.
  intros H C S. unfold redirected in S. destruct d as [d|]; [|now apply (aimed_regs j r f)].
  destruct (same_addr d r) as [->|]; [|now apply (aimed_regs j r f)].
  unfold coherent, dest_regs, get16 in *. now rewrite !S.
Qed.

Lemma opened_coherent j p m d f : coherent d (f j) -> coherent d (SockRegs.opened j p m f j).
Proof.
  apply coherent_ext. intros x Hx. unfold SockRegs.opened, setr. rewrite N.eqb_refl. unfold to_be, Sn_IMR, Sn_MR, Sn_PORT. rewrite !len_cons. change (len []) with 0.
  destruct (N.leb_spec 44 x), (N.ltb_spec x (44 + (1 + 0))), (N.leb_spec 0 x), (N.ltb_spec x (0 + (1 + 0))), (N.leb_spec 4 x), (N.ltb_spec x (4 + (1 + (1 + 0)))); cbn [andb]; try reflexivity; lia.
Qed.

Lemma agrees_regs s f j r : agrees s f -> dest_regs (f j) r -> dest_regs (regs (socks (s_chip s) j)) r.
Proof.
  intros A. apply (coherent_ext (Some r)). intros x Hx. apply A.
  assert (x = 12 \/ x = 13 \/ x = 14 \/ x = 15 \/ x = 16 \/ x = 17) as [->|[->|[->|[->|[->| ->]]]]] by lia; reflexivity.
Qed.
Lemma step_origin e fuel a o s a' r s' h u : run e (step fuel a o) s = (Done (a', r), s') -> op_handle o <> Some h ->
  lookup h (handles a') = Some (HUdp u) -> lookup h (handles a) = Some (HUdp u) \/ u_dest u = None.
Proof.
  intros R Ho L.
  assert (P : forall k v, Some k <> Some h -> lookup h (handles (put a k v)) = lookup h (handles a)) by (intros; apply lookup_update_other; congruence).
  assert (C : forall d k, Some k <> Some h -> lookup h (handles (consume a d k)) = lookup h (handles a)) by (intros; apply lookup_remove_other; congruence).
  destruct o; cbn [step op_handle] in *;
    try (destruct (lookup h0 (handles a)) as [[]|]; try (injection R as <- _ _; now left));
    try (apply run_bind_done in R as (qq & s1 & _ & R); injection R as <- _ _; rewrite ?P, ?C in L by assumption; now left);
    try (injection R as <- _ _; rewrite ?C in L by assumption; now left).
  - destruct (take_socket (dev a)) as [d [so|]]; injection R as <- _ _; [|now left]. apply lookup_snoc_inv in L as [L|L]; [now left|discriminate L].
  - destruct (release_socket (dev a) s0); [|discriminate R]. injection R as <- _ _. rewrite C in L by assumption. now left.
  - destruct (tcp_socket (dev a)) as [d [t|er]]; injection R as <- _ _; [|now left]. apply lookup_snoc_inv in L as [L|L]; [now left|discriminate L].
  - unfold udp_socket in R. destruct (take_socket (dev a)) as [d [so|]]; injection R as <- _ _; [|now left]. apply lookup_snoc_inv in L as [L|L]; [now left|].
    injection L as ->. now right.
Qed.

Lemma step_remembers e fuel h a o s a' r s' : pool_inv a -> good (handles a) -> o <> OpDevice QResetDevice -> port_ok h o ->
  run e (step fuel a o) s = (Done (a', r), s') -> ~ aim_fault h o r -> remembers h a s -> remembers h a' s'.
Proof.
  intros I G Hr Hp R NF J u' L'.
  assert (K : forall j, (forall k y, op_handle o = Some k -> lookup k (handles a) = Some y -> j = index (handle_socket y)) -> SockRegs.kept j (changes o) s s').
  { intros j Hj. pose proof (kept_run e j (changes o) _ (fw_step_at fuel a o j G Hr Hj) s) as T. rewrite R in T. exact T. }
  destruct (op_handle o) as [k|] eqn:Eo.
  2: { destruct (step_origin _ _ _ _ _ _ _ _ h u' R ltac:(congruence) L') as [L|D]; [|rewrite D; exact Logic.I].
       apply (dest_kept (index (u_socket u') + 1) (changes o) s s' _ _); [apply K; discriminate|left; lia|exact (J _ L)]. }
  destruct (Nat.eq_dec k h) as [->|Hk].
  2: { destruct (step_origin _ _ _ _ _ _ _ _ h u' R ltac:(congruence) L') as [L|D]; [|rewrite D; exact Logic.I].
       destruct (lookup k (handles a)) as [y|] eqn:Lk.
       - apply (dest_kept (index (handle_socket y)) (changes o) s s'); [apply K; intros k' z [= <-] Z; congruence| |exact (J _ L)].
         left. apply (other_socket a h k (HUdp u') y I); [congruence|exact L|exact Lk].
       - apply (dest_kept (index (u_socket u') + 1) (changes o) s s'); [apply K; intros k' z [= <-] Z; congruence|left; lia|exact (J _ L)]. }
  assert (K' : forall y, lookup h (handles a) = Some y -> SockRegs.kept (index (handle_socket y)) (changes o) s s').
  { intros y Ly. apply K. intros k z [= <-] Z. congruence. }
  clear K.
  destruct o; cbn [op_handle] in Eo; try discriminate Eo; injection Eo as ->; cbn [step] in R.
  all: try (injection R as <- _ _; unfold consume in L'; cbn [handles] in L'; rewrite lookup_removed in L'; discriminate L').
  all: destruct (lookup h (handles a)) as [[so|t|u]|] eqn:L; try (injection R as <- _ <-; now apply J).
  all: try (destruct (release_socket (dev a) so); [|discriminate R]; injection R as <- _ _; unfold consume in L'; cbn [handles] in L'; rewrite lookup_removed in L'; discriminate L').
  all: try rename q into qo; apply run_bind_done in R as (q & s1 & R & T); injection T as <- <- <-; try (rewrite L in L'; discriminate L').
  all: try (unfold consume in L'; cbn [handles] in L'; rewrite lookup_removed in L'; discriminate L').
  all: try (rewrite L in L'; injection L' as <-; apply (dest_kept _ _ _ _ _ _ (K' _ eq_refl)); [right; intros; reflexivity|exact (J _ L)]).
  all: unfold put in L'; cbn [handles] in L'; rewrite (lookup_update_same h _ _ _ L) in L'; injection L' as <-; pose proof (J _ L) as C; specialize (K' _ eq_refl).
  all: destruct (good_lookup _ _ _ G L) as (j & Hj & Ej); destruct u as [us ud up]; cbn [handle_socket u_socket u_dest] in *; subst us.
  - destruct remote as [d|].
    2: { injection R as <- <-. exact C. }
    pose proof (yields_run _ _ _ _ _ _ (ye_connect _ ud up d) R) as Y.
    destruct (follow_run e _ _ (now_in s) s q s1 (fo_udp_connect j Hj ud up d (now_in s)) (fun _ _ _ => eq_refl) R) as (f' & Af & F).
    destruct q as [u' [[]|[]]]; cbn [fst snd udp_leaves aim_fault] in *; try contradiction. subst u'.
    cbn [u_dest u_socket]. apply (agrees_regs s1 f' j d Af). exact (redirected_regs j ud d _ f' (Hp eq_refl) (opened_coherent j up 2 ud (now_in s) C) F).
  - destruct q as [u' q]. pose proof (yields_run _ _ _ _ _ _ (ye_bind _ ud up port) R) as [Y1 Y2]. cbn [fst] in *. rewrite Y1, Y2.
    apply (dest_kept _ _ _ _ _ _ K'); [right; intros x Hx; cbn [changes]; now apply aims_opens|exact C].
  - destruct remote as [b|].
    2: { injection R as <- <-. exact C. }
    pose proof (yields_run _ _ _ _ _ _ (ye_send_to fuel _ ud up b d) R) as Y.
    destruct (follow_run e _ _ (now_in s) s q s1 (fo_udp_send_to j Hj fuel ud up b d (now_in s)) (fun _ _ _ => eq_refl) R) as (f' & Af & F).
    assert (F1 : same f' (redirected j ud b (now_in s)) /\ fst q = mkUdp (socket_new j) (Some b) up).
    { destruct q as [u' [?|[|[]]]]; cbn [fst snd] in *; auto; exfalso; now apply NF. }
    destruct F1 as [F1 F2]. rewrite F2. cbn [u_dest u_socket]. apply (agrees_regs s1 f' j b Af). exact (redirected_regs j ud b _ f' (Hp eq_refl) C F1).
  - destruct q as [u' q]. pose proof (yields_run _ _ _ _ _ _ (ye_set_port _ ud up port) R) as [Y1 Y2]. cbn [fst] in *. rewrite Y1, Y2.
    apply (dest_kept _ _ _ _ _ _ K'); [right; intros x Hx; cbn [changes]|exact C]. apply aims_opens in Hx. unfold opens in Hx. now apply orb_false_elim in Hx.
Qed.

(** ** Whole programs *)
Lemma ops_remember e fuel h : forall ops a s a' outs s', pool_inv a -> good (handles a) -> ~ In (OpDevice QResetDevice) ops -> Forall (port_ok h) ops ->
  run e (run_ops fuel a ops) s = (Done (a', outs), s') -> (forall o r, In (o, r) (combine ops outs) -> ~ aim_fault h o r) ->
  remembers h a s -> remembers h a' s'.
Proof.
  induction ops as [|o ops IH]; intros a s a' outs s' I G Hr Hp R NF J; cbn [run_ops] in R.
  - injection R as <- <- <-. exact J.
  - apply run_bind_done in R as ([a1 r1] & s1 & R1 & R). cbn [fst snd] in R. apply run_bind_done in R as ([a2 r2] & s2 & R2 & R). injection R as <- <- <-.
    inversion Hp as [|? ? P1 P2]; subst. cbn [combine] in NF.
    eapply (IH a1 s1); [eapply run_step_inv; eauto|eapply run_good; eauto|intros T; apply Hr; now right|exact P2|exact R2|intros o' r' T; apply NF; now right|].
    eapply step_remembers; [exact I|exact G|intros T; apply Hr; left; exact T|exact P1|exact R1|apply NF; now left|exact J].
Qed.
(** a call that names a remote other than the remembered one, and reports no bus error, puts
    handle and chip in agreement whatever went before *)
Lemma step_resync e fuel h a s r o a' out s' u : good (handles a) -> lookup h (handles a) = Some (HUdp u) -> u_dest u <> Some r -> a_port r < 65536 ->
  o = OpUdpConnect h (V4 r) \/ (exists d, o = OpUdpSendTo h (V4 r) d) -> run e (step fuel a o) s = (Done (a', out), s') -> ~ aim_fault h o out ->
  exists u', lookup h (handles a') = Some (HUdp u') /\ u_socket u' = u_socket u /\ u_dest u' = Some r /\ dest_regs (regs (socks (s_chip s') (index (u_socket u)))) r.
Proof.
  intros G L D Hr Ho R NF. destruct (good_lookup _ _ _ G L) as (j & Hj & Ej). destruct u as [us ud up]. cbn [handle_socket u_socket u_dest] in *. subst us.
  assert (E : forall g, redirected j ud r g = SockRegs.aimed j r g).
  { intros g. unfold redirected. destruct ud as [q|]; [|reflexivity]. destruct (same_addr q r) as [->|]; [congruence|reflexivity]. }
  destruct Ho as [->|[d ->]]; cbn [step] in R; rewrite L in R; apply run_bind_done in R as (q & s1 & R & T); injection T as <- <- <-.
  - pose proof (yields_run _ _ _ _ _ _ (ye_connect _ ud up r) R) as Y.
    destruct (follow_run e _ _ (now_in s) s q s1 (fo_udp_connect j Hj ud up r (now_in s)) (fun _ _ _ => eq_refl) R) as (f' & Af & F).
    destruct q as [u' [[]|[]]]; cbn [fst snd udp_leaves aim_fault] in *; try contradiction. subst u'. rewrite E in F.
    exists (mkUdp (socket_new j) (Some r) up). split; [unfold put; cbn [handles]; eapply lookup_update_same; exact L|]. split; [reflexivity|]. split; [reflexivity|].
    apply (agrees_regs s1 f' j r Af). exact (aimed_regs j r _ f' Hr F).
  - pose proof (yields_run _ _ _ _ _ _ (ye_send_to fuel _ ud up r d) R) as Y.
    destruct (follow_run e _ _ (now_in s) s q s1 (fo_udp_send_to j Hj fuel ud up r d (now_in s)) (fun _ _ _ => eq_refl) R) as (f' & Af & F). rewrite E in F.
    assert (F1 : same f' (SockRegs.aimed j r (now_in s)) /\ fst q = mkUdp (socket_new j) (Some r) up).
    { destruct q as [u' [?|[|[]]]]; cbn [fst snd] in *; auto; exfalso; now apply NF. }
    destruct F1 as [F1 F2]. exists (mkUdp (socket_new j) (Some r) up). rewrite F2. split; [unfold put; cbn [handles]; eapply lookup_update_same; exact L|]. split; [reflexivity|].
    split; [reflexivity|]. apply (agrees_regs s1 f' j r Af). exact (aimed_regs j r _ f' Hr F1).
Qed.
