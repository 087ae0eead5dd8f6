(** Exact executions of single calls, for arbitrary bus behaviour. *)
From Verif Require Export ExecFacts ApiFacts Datasheet.
From Coq Require Import Lia.

(** [xt p Q]: every execution that is not cut off satisfies [Q] *)
Definition xt {A} (p : prog A) (Q : list event -> outcome A -> Prop) : Prop :=
  forall tr o, exec p tr o -> o <> Cut -> Q tr o.

Lemma xt_ret {A} (a : A) (Q : list event -> outcome A -> Prop) : Q [] (Done a) -> xt (Ret a) Q.
Proof. intros H tr o X Hc. apply exec_Ret_inv in X as [-> [-> | ->]]; [exact H|congruence]. Qed.
Lemma xt_panic {A} w (Q : list event -> outcome A -> Prop) : Q [] (Panicked w) -> xt (Panic w) Q.
Proof. intros H tr o X Hc. inversion X; subst; [congruence|exact H]. Qed.
Lemma xt_spin {A} (Q : list event -> outcome A -> Prop) : Q [] Looping -> xt Spin Q.
Proof. intros H tr o X Hc. inversion X; subst; [congruence|exact H]. Qed.

Lemma xt_mono {A} (p : prog A) (Q Q' : list event -> outcome A -> Prop) :
  (forall tr o, Q tr o -> Q' tr o) -> xt p Q -> xt p Q'.
Proof. intros H X tr o Y Hc. apply H, X; auto. Qed.

Lemma xt_ptree {A} B W (G : A -> Prop) p :
  ptree B W G p ->
  xt p (fun tr o => (forall ev, In ev tr -> match ev with ERead b a _ _ | EWrite b a _ _ => B b a end) /\
                    match o with Done a => G a | Panicked w => W w | _ => True end).
Proof. intros H tr o X _. exact (ptree_exec _ _ _ _ _ _ H X). Qed.

Lemma xt_bind {A B} (p : prog A) (f : A -> prog B) (Q : list event -> outcome B -> Prop) :
  xt p (fun tr o => match o with
                    | Done a => xt (f a) (fun tr2 o2 => Q (tr ++ tr2) o2)
                    | Panicked w => Q tr (Panicked w)
                    | Looping => Q tr Looping
                    | Cut => True
                    end) ->
  xt (bind p f) Q.
Proof.
  intros H tr o X Hc. apply exec_bind_inv in X as [(tr1 & a & tr2 & -> & X1 & X2)|(o' & X1 & Hn & ->)].
  - specialize (H _ _ X1). cbn in H. now apply H.
  - destruct o'; cbn in *; try congruence; specialize (H _ _ X1); cbn in H; apply H; congruence.
Qed.

Lemma xt_try {A E R} (p : prog (res A E)) (h : E -> R) k (Q : list event -> outcome R -> Prop) :
  xt p (fun tr o => match o with
                    | Done (Ok a) => xt (k a) (fun tr2 o2 => Q (tr ++ tr2) o2)
                    | Done (Err e) => Q tr (Done (h e))
                    | Panicked w => Q tr (Panicked w)
                    | Looping => Q tr Looping
                    | Cut => True
                    end) ->
  xt (try_ p h k) Q.
Proof.
  intros H. unfold try_. apply xt_bind. eapply xt_mono; [|exact H].
  intros tr [[a|e]|w| |] X; auto. apply xt_ret. now rewrite app_nil_r.
Qed.

Lemma xt_write blk a d (Q : list event -> outcome (res unit berr) -> Prop) :
  (forall r, Q [EWrite blk a d r] (Done r)) -> xt (write_frame blk a d) Q.
Proof.
  intros H tr o X Hc. unfold write_frame in X. inversion X; subst; [congruence|].
  match goal with Y : exec (Ret _) _ _ |- _ => apply exec_Ret_inv in Y as [-> [-> | ->]]; [apply H|congruence] end.
Qed.
Lemma xt_read blk a buf (Q : list event -> outcome (list byte * res unit berr) -> Prop) :
  (forall got r, length got = length buf -> Q [ERead blk a got r] (Done (got, r))) ->
  xt (read_into blk a buf) Q.
Proof.
  intros H tr o X Hc. unfold read_into in X. inversion X; subst; [congruence|].
  match goal with Y : exec (Ret _) _ _ |- _ => apply exec_Ret_inv in Y as [-> [-> | ->]]; [now apply H|congruence] end.
Qed.

(** [try d <- read_reg ..] *)
Lemma xt_try_read {R} blk a n (h : berr -> R) k (Q : list event -> outcome R -> Prop) :
  (forall got, length got = n -> xt (k got) (fun tr o => Q (ERead blk a got (Ok tt) :: tr) o)) ->
  (forall got e, length got = n -> Q [ERead blk a got (Err e)] (Done (h e))) ->
  xt (try_ (read_reg blk a n) h k) Q.
Proof.
  intros H1 H2. apply xt_try. intros tr o X Hc. unfold read_reg in X. inversion X; subst; [congruence|].
  match goal with Y : exec (Ret _) _ _ |- _ => apply exec_Ret_inv in Y as [-> [-> | ->]]; [|congruence] end.
  match goal with L : length _ = length _ |- _ => unfold zeros in L; rewrite repeat_length in L end.
  destruct r as [[]|e]; cbn [snd fst]; auto. now apply H1.
Qed.
(** the register getters of socket.rs *)
Lemma xt_try_get {R B} blk a n (f : list byte -> B) (h : berr -> R) k (Q : list event -> outcome R -> Prop) :
  (forall got, length got = n -> xt (k (f got)) (fun tr o => Q (ERead blk a got (Ok tt) :: tr) o)) ->
  (forall got e, length got = n -> Q [ERead blk a got (Err e)] (Done (h e))) ->
  xt (try_ (try o <- read_reg blk a n else Err ;; Ret (Ok (f o))) h k) Q.
Proof.
  intros H1 H2. apply xt_try. apply xt_try_read.
  - intros got L. apply xt_ret. now apply H1.
  - intros got e L. now apply H2.
Qed.
Lemma xt_try_write {R} blk a d (h : berr -> R) k (Q : list event -> outcome R -> Prop) :
  xt (k tt) (fun tr o => Q (EWrite blk a d (Ok tt) :: tr) o) ->
  (forall e, Q [EWrite blk a d (Err e)] (Done (h e))) ->
  xt (try_ (write_frame blk a d) h k) Q.
Proof. intros H1 H2. apply xt_try, xt_write. intros [[]|e]; auto. Qed.

Definition only_reads (tr : list event) : Prop := forall ev, In ev tr -> is_write ev = false.
Lemma only_reads_nil : only_reads []. Proof. intros ? []. Qed.
Lemma only_reads_app a b : only_reads a -> only_reads b -> only_reads (a ++ b).
Proof. intros H1 H2 ev Hin. apply in_app_or in Hin as [?|?]; auto. Qed.
Lemma only_reads_cons b a g r tr : only_reads tr -> only_reads (ERead b a g r :: tr).
Proof. intros H ev [<-|Hin]; [reflexivity|auto]. Qed.
#[export] Hint Resolve only_reads_nil only_reads_app only_reads_cons : core.

(** ** The received-size loop *)
(** reads of Sn_RX_RSR: pairs that differ, then a pair that agrees on [w] *)
Definition size_reads (blk : N) (l : list (list byte * list byte)) (w : list byte) : list event :=
  flat_map (fun p => [ERead blk Sn_RX_RSR (fst p) (Ok tt); ERead blk Sn_RX_RSR (snd p) (Ok tt)]) l
  ++ [ERead blk Sn_RX_RSR w (Ok tt); ERead blk Sn_RX_RSR w (Ok tt)].
Definition differing (l : list (list byte * list byte)) : Prop := Forall (fun p => fst p <> snd p) l.

Lemma only_reads_size blk l w : only_reads (size_reads blk l w).
Proof.
  unfold size_reads. apply only_reads_app; [|auto]. induction l; cbn; auto.
Qed.

Lemma xt_receive_size fuel s :
  xt (get_receive_size fuel s) (fun tr o =>
    only_reads tr /\
    match o with
    | Done (Ok n) => exists l w, differing l /\ length w = 2%nat /\ n = from_be w /\
                                 tr = size_reads (register s) l w
    | Done (Err _) | Looping => True
    | _ => False
    end).
Proof.
  induction fuel as [|fuel IH]; cbn [get_receive_size].
  - apply xt_spin. auto.
  - apply xt_try_read; [|intros; split; auto]. intros g1 L1. apply xt_try_read; [|intros; split; auto].
    intros g2 L2. destruct (bytes_eqb g1 g2) eqn:E.
    + apply bytes_eqb_eq in E as <-. apply xt_ret. split; [auto|]. exists [], g1.
      repeat split; auto. constructor.
    + eapply xt_mono; [|exact IH]. cbv beta. intros tr o [H1 H2]. split; [auto|].
      destruct o as [[n|e]|w| |]; auto. destruct H2 as (l & w & D & L & -> & ->).
      exists ((g1, g2) :: l), w. split; [|auto]. constructor; [|exact D]. cbn. now apply bytes_eqb_neq.
Qed.

Lemma xt_try_size {R} fuel s (h : berr -> R) k (Q : list event -> outcome R -> Prop) :
  (forall l w, differing l -> length w = 2%nat ->
     xt (k (from_be w)) (fun tr o => Q (size_reads (register s) l w ++ tr) o)) ->
  (forall tr e, only_reads tr -> Q tr (Done (h e))) ->
  (forall tr, only_reads tr -> Q tr Looping) ->
  xt (try_ (get_receive_size fuel s) h k) Q.
Proof.
  intros H1 H2 H3. apply xt_try. eapply xt_mono; [|apply xt_receive_size].
  cbv beta. intros tr [[n|e]|w| |] [Hr H]; auto; [|contradiction].
  destruct H as (l & w & D & L & -> & ->). auto.
Qed.

(** ** status bytes *)
Definition known_status (b : byte) : Prop :=
  In (b2n b) [SOCK_CLOSED; SOCK_INIT; SOCK_LISTEN; SOCK_SYNSENT; SOCK_SYNRECV; SOCK_ESTABLISHED;
              SOCK_FIN_WAIT; SOCK_CLOSING; SOCK_TIME_WAIT; SOCK_CLOSE_WAIT; SOCK_LAST_ACK; SOCK_UDP;
              SOCK_MACRAW].
Lemma known_status_dec b : {known_status b} + {~ known_status b}.
Proof. apply in_dec, N.eq_dec. Qed.

Lemma status_gate b :
  udp_status_gate b =
    if b2n b =? SOCK_UDP then Ok tt
    else Err (NbOther (if known_status_dec b then USocketNotOpen else UUnrecognisedStatus)).
Proof.
  destruct (known_status_dec b) as [K|K].
  - unfold known_status in K. cbn [In] in K. unfold udp_status_gate, status_try_from.
    destruct (N.eqb_spec (b2n b) SOCK_UDP) as [->|Hn]; [reflexivity|].
    repeat (destruct K as [K|K]; [rewrite <- K in *; try reflexivity; exfalso; apply Hn; reflexivity|]).
    destruct K.
  - destruct (N.eqb_spec (b2n b) SOCK_UDP) as [E|Hn].
    + exfalso. apply K. unfold known_status. rewrite E. cbn. tauto.
    + unfold udp_status_gate. destruct (status_try_from b) as [s|] eqn:E; [|reflexivity].
      exfalso. apply K. clear K Hn. unfold known_status.
      revert E. unfold status_try_from. destruct b; cbn; try discriminate; intros _; tauto.
Qed.

(** ** C34, C41 *)
Lemma land_bit x : negb (N.land (b2n x) 4 =? 0) = N.testbit (b2n x) 2.
Proof. destruct x; reflexivity. Qed.

Definition is_not {A} (bad : A) (r : A) : Prop := r <> bad.

Ltac xany := eapply xt_mono; [|eapply xt_ptree].

(** every computation of this kind satisfies a predicate on results that all its leaves do *)
Fixpoint leaves {A} (G : A -> Prop) (p : prog A) : Prop :=
  match p with
  | Ret a => G a
  | Panic _ | Spin => True
  | BusRead _ _ _ k => forall g, leaves G (k g)
  | BusWrite _ _ _ k => forall r, leaves G (k r)
  end.
Lemma leaves_bind {A B} (G : B -> Prop) (p : prog A) f :
  leaves (fun a => leaves G (f a)) p -> leaves G (bind p f).
Proof. induction p as [a|w| |b a d k IH|b a d k IH]; cbn; auto. Qed.
Lemma leaves_all {A} (G : A -> Prop) p : (forall a, G a) -> leaves G p.
Proof. intros H. induction p; cbn; auto. Qed.
Lemma leaves_try {A E R} (G : R -> Prop) (p : prog (res A E)) h k :
  (forall a, leaves G (k a)) -> (forall e, G (h e)) -> leaves G (try_ p h k).
Proof. intros H1 H2. unfold try_. apply leaves_bind, leaves_all. intros [a|e]; cbn; auto. Qed.
Lemma xt_leaves {A} (G : A -> Prop) p :
  leaves G p -> xt p (fun _ o => match o with Done a => G a | _ => True end).
Proof.
  intros H tr o X _. revert H. induction X; cbn [leaves]; intros HL; auto; apply IHX; apply HL.
Qed.

Lemma lv_tcp_send_data fuel t d : leaves (is_not (Err TNotConnected)) (tcp_send_data fuel t d).
Proof.
  unfold tcp_send_data, is_not, tE. cbv zeta.
  repeat (apply leaves_try; [intros ?|discriminate]). discriminate.
Qed.
Lemma lv_tcp_receive_data t n d : leaves (fun r => snd r <> Err TNotConnected) (tcp_receive_data t n d).
Proof.
  unfold tcp_receive_data, tE. cbv zeta. apply leaves_try; [intros ?|discriminate].
  apply leaves_bind, leaves_all. intros [g [u|e]]; cbn [fst snd]; [|discriminate].
  repeat (apply leaves_try; [intros ?|discriminate]). discriminate.
Qed.

Lemma tcp_send_gate i fuel data :
  i < 8 ->
  xt (tcp_send fuel (mkTcp (socket_new i)) data) (fun tr o =>
    exists b q rest, tr = ERead (BSB_REG i) Sn_SR [b] q :: rest /\
      (q = Ok tt -> b2n b <> SOCK_ESTABLISHED -> rest = [] /\ o = Done (Err (NbOther TNotConnected))) /\
      (o = Done (Err (NbOther TNotConnected)) -> q = Ok tt /\ b2n b <> SOCK_ESTABLISHED)).
Proof.
  intros Hi. unfold tcp_send. apply xt_try. unfold tcp_socket_send. apply xt_try.
  unfold tcp_is_connected. apply xt_try_get.
  - intros g L. destruct g as [|b [|]]; try discriminate L. clear L. destruct (socket_blocks i Hi) as (E1 & _).
    cbn [t_socket]. rewrite E1. apply xt_ret. cbn [byte0 hd].
    destruct (N.eqb_spec (b2n b) (status_u8 StEstablished)) as [E|E]; cbn [negb].
    + eapply xt_mono with (Q := fun _ o => match o with Done a => a <> Err TNotConnected | _ => True end).
      * intros tr [[n|e]|w| |] H; cbn [List.app]; try exact I.
        -- apply xt_ret. exists b, (Ok tt), (tr ++ []). split; [reflexivity|].
           split; [intros _ Hn; now elim Hn|discriminate].
        -- exists b, (Ok tt), tr. split; [reflexivity|].
           split; [intros _ Hn; now elim Hn|]. intros [= ->]. now elim H.
        -- exists b, (Ok tt), tr. split; [reflexivity|].
           split; [intros _ Hn; now elim Hn|discriminate].
        -- exists b, (Ok tt), tr. split; [reflexivity|].
           split; [intros _ Hn; now elim Hn|discriminate].
      * apply xt_leaves. apply leaves_try; [intros ?|discriminate].
        destruct (_ <? _); [apply lv_tcp_send_data|]. unfold slice_to.
        destruct (_ <=? _); [apply lv_tcp_send_data|exact I].
    + apply xt_ret. exists b, (Ok tt), []. cbn [List.app]. split; [reflexivity|]. auto.
  - intros g e L. destruct g as [|b [|]]; try discriminate L. clear L. destruct (socket_blocks i Hi) as (E1 & _).
    cbn [t_socket]. rewrite E1. exists b, (Err e), []. split; [reflexivity|].
    split; discriminate.
Qed.

Lemma tcp_receive_gate i fuel data :
  i < 8 ->
  xt (tcp_receive fuel (mkTcp (socket_new i)) data) (fun tr o =>
    exists b q rest, tr = ERead (BSB_REG i) Sn_SR [b] q :: rest /\
      (q = Ok tt -> b2n b <> SOCK_ESTABLISHED ->
         rest = [] /\ o = Done (data, Err (NbOther TNotConnected))) /\
      ((exists d', o = Done (d', Err (NbOther TNotConnected))) -> q = Ok tt /\ b2n b <> SOCK_ESTABLISHED) /\
      (q = Ok tt -> b2n b = SOCK_ESTABLISHED ->
         exists f q2 rest2, rest = ERead (BSB_REG i) Sn_IR [f] q2 :: rest2 /\
           (q2 = Ok tt -> N.testbit (b2n f) 2 = false -> rest2 = [] /\ o = Done (data, Ok 0)))).
Proof.
  intros Hi. unfold tcp_receive. apply xt_bind. unfold tcp_socket_receive. apply xt_try.
  destruct (socket_blocks i Hi) as (E1 & _).
  unfold tcp_is_connected. apply xt_try_get.
  - intros g L. destruct g as [|b [|]]; try discriminate L. clear L. cbn [t_socket]. rewrite E1. apply xt_ret. cbn [byte0 hd].
    destruct (N.eqb_spec (b2n b) (status_u8 StEstablished)) as [E|E]; cbn [negb].
    + apply xt_try_get.
      * intros f Lf. destruct f as [|c [|]]; try discriminate Lf. clear Lf. cbn [t_socket]. rewrite E1. cbn [byte0 hd].
        change (interrupt_u8 InReceive) with 4. rewrite land_bit.
        destruct (N.testbit (b2n c) 2) eqn:F; cbn [negb].
        -- assert (K : forall tr (o : outcome (list byte * res N (nberr terr))),
             ~ (exists d', o = Done (d', Err (NbOther TNotConnected))) ->
             exists b' q rest, ERead (BSB_REG i) Sn_SR [b] (Ok tt)
               :: ERead (BSB_REG i) Sn_IR [c] (Ok tt) :: tr = ERead (BSB_REG i) Sn_SR [b'] q :: rest /\
              (q = Ok tt -> b2n b' <> SOCK_ESTABLISHED ->
                 rest = [] /\ o = Done (data, Err (NbOther TNotConnected))) /\
              ((exists d', o = Done (d', Err (NbOther TNotConnected))) -> q = Ok tt /\ b2n b' <> SOCK_ESTABLISHED) /\
              (q = Ok tt -> b2n b' = SOCK_ESTABLISHED ->
                 exists f q2 rest2, rest = ERead (BSB_REG i) Sn_IR [f] q2 :: rest2 /\
                   (q2 = Ok tt -> N.testbit (b2n f) 2 = false -> rest2 = [] /\ o = Done (data, Ok 0)))).
           { intros tr o Hn. exists b, (Ok tt). eexists. split; [reflexivity|].
             split; [intros _ H; now elim H|]. split; [tauto|]. intros _ _.
             exists c, (Ok tt), tr. split; [reflexivity|]. congruence. }
           eapply xt_mono with (Q := fun _ o => match o with Done a => snd a <> Err TNotConnected | _ => True end).
           ++ intros tr [[d r]|w| |] H; cbn [List.app fst snd] in *; try exact I.
              ** apply xt_ret. rewrite app_nil_r. apply K. intros [d' [= -> H1]].
                 destruct r as [n|e]; [discriminate|]. injection H1 as ->. now elim H.
              ** apply K. intros [? ?]. discriminate.
              ** apply K. intros [? ?]. discriminate.
           ++ apply xt_leaves. apply leaves_try; [intros ?|discriminate].
              destruct (_ <? _); [apply lv_tcp_receive_data|].
              destruct (_ <=? _); [apply lv_tcp_receive_data|exact I].
        -- apply xt_ret. cbn [List.app]. apply xt_ret. exists b, (Ok tt). eexists.
           split; [reflexivity|]. split; [intros _ H; now elim H|]. split; [intros [d' H]; discriminate|].
           intros _ _. exists c, (Ok tt), []. auto.
      * intros f e Lf. destruct f as [|c [|]]; try discriminate Lf. clear Lf. cbn [t_socket]. rewrite E1. cbn [List.app]. apply xt_ret.
        exists b, (Ok tt). eexists. split; [reflexivity|]. split; [intros _ H; now elim H|].
        split; [intros [d' H]; discriminate|]. intros _ _. exists c, (Err e), []. split; [reflexivity|discriminate].
    + apply xt_ret. cbn [List.app]. apply xt_ret. exists b, (Ok tt), []. split; [reflexivity|].
      split; [auto|]. split; [auto|]. intros _ H. now elim E.
  - intros g e L. destruct g as [|b [|]]; try discriminate L. clear L. cbn [t_socket]. rewrite E1. apply xt_ret.
    exists b, (Err e), []. split; [reflexivity|].
    split; [discriminate|]. split; [intros [d' H]; discriminate|discriminate].
Qed.

(** ** UDP receive: all executions *)
Inductive urecv (i : N) (buf : list byte) : list event -> outcome (list byte * res (N * sockaddr) (nberr uerr)) -> Prop :=
| ur_bus tr buf' e : urecv i buf tr (Done (buf', Err (NbOther (UOther e))))
| ur_loop tr : urecv i buf tr Looping
| ur_closed b (K : {known_status b} + {~ known_status b}) : b2n b <> SOCK_UDP ->
    urecv i buf [ERead (BSB_REG i) Sn_SR [b] (Ok tt)]
      (Done (buf, Err (NbOther (if K then USocketNotOpen else UUnrecognisedStatus))))
| ur_norecv b f : b2n b = SOCK_UDP -> N.testbit (b2n f) 2 = false ->
    urecv i buf [ERead (BSB_REG i) Sn_SR [b] (Ok tt); ERead (BSB_REG i) Sn_IR [f] (Ok tt)]
      (Done (buf, Err WouldBlock))
| ur_nodata b f l w : b2n b = SOCK_UDP -> N.testbit (b2n f) 2 = true ->
    differing l -> length w = 2%nat -> from_be w = 0 ->
    urecv i buf ([ERead (BSB_REG i) Sn_SR [b] (Ok tt); ERead (BSB_REG i) Sn_IR [f] (Ok tt)]
                   ++ size_reads (BSB_REG i) l w)
      (Done (buf, Err WouldBlock))
| ur_nobuf b f l w : b2n b = SOCK_UDP -> N.testbit (b2n f) 2 = true ->
    differing l -> length w = 2%nat -> from_be w <> 0 -> buf = [] ->
    urecv i buf ([ERead (BSB_REG i) Sn_SR [b] (Ok tt); ERead (BSB_REG i) Sn_IR [f] (Ok tt)]
                   ++ size_reads (BSB_REG i) l w)
      (Done (buf, Err (NbOther UBufferOverflow)))
| ur_panic b f l w p h : b2n b = SOCK_UDP -> N.testbit (b2n f) 2 = true ->
    differing l -> length w = 2%nat -> from_be w <> 0 -> buf <> [] -> length p = 2%nat -> length h = 8%nat ->
    len buf < from_be [nth 6 h x00; nth 7 h x00] ->
    urecv i buf ([ERead (BSB_REG i) Sn_SR [b] (Ok tt); ERead (BSB_REG i) Sn_IR [f] (Ok tt)]
                   ++ size_reads (BSB_REG i) l w
                   ++ [ERead (BSB_REG i) Sn_RX_RD p (Ok tt); ERead (BSB_RX i) (from_be p) h (Ok tt)])
      (Panicked P_udp_recv_slice)
| ur_data b f l w p h got n : b2n b = SOCK_UDP -> N.testbit (b2n f) 2 = true ->
    differing l -> length w = 2%nat -> from_be w <> 0 -> buf <> [] -> length p = 2%nat -> length h = 8%nat ->
    from_be [nth 6 h x00; nth 7 h x00] <= len buf ->
    n = N.max (N.min (from_be w) (len buf)) (from_be [nth 6 h x00; nth 7 h x00]) -> len got = n ->
    urecv i buf ([ERead (BSB_REG i) Sn_SR [b] (Ok tt); ERead (BSB_REG i) Sn_IR [f] (Ok tt)]
                   ++ size_reads (BSB_REG i) l w
                   ++ [ERead (BSB_REG i) Sn_RX_RD p (Ok tt); ERead (BSB_RX i) (from_be p) h (Ok tt);
                       ERead (BSB_RX i) ((from_be p + 8) mod 65536) got (Ok tt);
                       EWrite (BSB_REG i) Sn_RX_RD (to_be ((from_be p + from_be w) mod 65536)) (Ok tt);
                       EWrite (BSB_REG i) Sn_CR [u8 CR_RECV] (Ok tt);
                       EWrite (BSB_REG i) Sn_IR [u8 IR_RECV] (Ok tt)])
      (Done (got ++ drop n buf, Ok (n, V4 (origin (udp_header_from h))))).

Lemma udp_receive_cases i fuel u buf :
  i < 8 -> u_socket u = socket_new i -> xt (udp_receive fuel u buf) (urecv i buf).
Proof.
  intros Hi Hu. destruct (socket_blocks i Hi) as (E1 & E2 & E3 & _).
  unfold udp_receive. apply xt_bind. unfold udp_socket_receive. rewrite Hu. cbv zeta.
  apply xt_try_get.
  2: { intros g e L. apply xt_ret. apply ur_bus. }
  intros g L. destruct g as [|b [|]]; try discriminate L. clear L. cbn [byte0 hd]. rewrite E1.
  rewrite status_gate. destruct (N.eqb_spec (b2n b) SOCK_UDP) as [Eb|Eb].
  2: { apply xt_ret. apply xt_ret. cbn [List.app fst snd]. now apply ur_closed. }
  apply xt_try_get.
  2: { intros g e L. apply xt_ret. apply ur_bus. }
  intros g L. destruct g as [|f [|]]; try discriminate L. clear L. cbn [byte0 hd]. rewrite E1.
  change (interrupt_u8 InReceive) with 4. rewrite land_bit.
  destruct (N.testbit (b2n f) 2) eqn:F; cbn [negb].
  2: { apply xt_ret. apply xt_ret. cbn [List.app fst snd]. now apply ur_norecv. }
  apply xt_try_size.
  2: { intros tr e _. apply xt_ret. apply ur_bus. }
  2: { intros tr _. apply ur_loop. }
  rewrite E1. intros l w D Lw.
  destruct (N.eqb_spec (from_be w) 0) as [W0|W0].
  { apply xt_ret. apply xt_ret. cbn [List.app fst snd]. rewrite !app_nil_r. now apply ur_nodata. }
  destruct (N.eqb_spec (len buf) 0) as [B0|B0].
  { apply xt_ret. apply xt_ret. cbn [List.app fst snd]. rewrite !app_nil_r. apply ur_nobuf; auto.
    now apply len_0_nil. }
  assert (Hb : buf <> []) by (intros ->; apply B0; reflexivity).
  apply xt_try_get.
  2: { intros g e L. apply xt_ret. apply ur_bus. }
  intros p Lp. rewrite E1. apply xt_try_read.
  2: { intros g e L. apply xt_ret. apply ur_bus. }
  intros h Lh. rewrite E3.
  set (hl := h_len (udp_header_from h)). assert (Hhl : hl = from_be [nth 6 h x00; nth 7 h x00]) by reflexivity.
  set (n := N.max (N.min (from_be w) (len buf)) hl).
  unfold slice_to. destruct (N.leb_spec n (len buf)) as [Ln|Ln].
  2: { apply xt_panic. rewrite <- ?app_comm_cons, <- ?app_assoc. cbn [List.app].
       apply (ur_panic i buf b f l w p h); auto. rewrite <- Hhl. subst n. lia. }
  apply xt_bind. apply xt_read. intros got r Lg. cbn [fst snd].
  destruct r as [[]|e].
  2: { apply xt_ret. apply xt_ret. apply ur_bus. }
  unfold set_rx_read_pointer, command, reset_interrupt.
  apply xt_try_write.
  2: { intros e. apply xt_ret. apply ur_bus. }
  apply xt_try_write.
  2: { intros e. apply xt_ret. apply ur_bus. }
  apply xt_try_write.
  2: { intros e. apply xt_ret. apply ur_bus. }
  rewrite E1. apply xt_ret. apply xt_ret. cbn [fst snd]. rewrite <- ?app_comm_cons, <- ?app_assoc. cbn [List.app].
  assert (Ew : wadd16 (from_be p) (as_u16 (from_be w)) = (from_be p + from_be w) mod 65536).
  { unfold wadd16, as_u16. rewrite N.add_mod_idemp_r by discriminate. reflexivity. }
  rewrite Ew.
  apply (ur_data i buf b f l w p h got n); auto.
  - rewrite <- Hhl. subst n. lia.
  - unfold len. rewrite Lg. rewrite length_take. unfold len in *. lia.
Qed.

(** ** C48: UDP send *)
(** the errors the property is about, with what the last access showed *)
Definition ugate (i : N) (dest : option addr4) (tr : list event) (e : uerr) : Prop :=
  match e with
  | USocketNotOpen => exists tr0 b, tr = tr0 ++ [ERead (BSB_REG i) Sn_SR [b] (Ok tt)] /\
                                    known_status b /\ b2n b <> SOCK_UDP
  | UUnrecognisedStatus => exists tr0 b, tr = tr0 ++ [ERead (BSB_REG i) Sn_SR [b] (Ok tt)] /\ ~ known_status b
  | UDestinationNotSet => dest = None
  | UBufferFull => exists tr0 w, tr = tr0 ++ [ERead (BSB_REG i) Sn_TX_FSR w (Ok tt)] /\ from_be w = 0
  | _ => True
  end.
Definition is_ugate (e : uerr) : Prop :=
  match e with USocketNotOpen | UUnrecognisedStatus | UDestinationNotSet | UBufferFull => True | _ => False end.

Lemma ugate_app i d tr1 tr2 e : ugate i d tr2 e -> ugate i d (tr1 ++ tr2) e.
Proof.
  destruct e; cbn; auto; intros (tr0 & b & -> & H); exists (tr1 ++ tr0), b; now rewrite app_assoc.
Qed.

Lemma lv_flush_loop fuel u :
  leaves (fun r => match r with Err (NbOther e) => ~ is_ugate e | _ => True end) (udp_flush_loop fuel u).
Proof.
  induction fuel as [|fuel IH]; cbn [udp_flush_loop]; [exact I|]. apply leaves_bind.
  unfold udp_try_flush_tx, uE. cbv zeta.
  repeat (apply leaves_try; [intros ?|intros ?; cbn; tauto]).
  destruct (_ =? _); [|cbn; exact IH].
  apply leaves_try; [intros ok|intros ?; cbn; tauto]. destruct ok.
  - apply leaves_try; [intros ?|intros ?; cbn; tauto]. cbn. exact I.
  - apply leaves_try; [intros tm|intros ?; cbn; tauto]. destruct tm.
    + apply leaves_try; [intros ?|intros ?; cbn; tauto]. cbn. tauto.
    + cbn. exact I.
Qed.
Lemma lv_udp_send_data fuel u d :
  leaves (fun r => match r with Err (NbOther e) => ~ is_ugate e | _ => True end) (udp_send_data fuel u d).
Proof.
  unfold udp_send_data, uE. cbv zeta.
  do 3 (apply leaves_try; [intros ?|intros ?; cbn; tauto]).
  unfold try_ at 1. apply leaves_bind. unfold udp_block_send_command, uE.
  apply leaves_try; [intros ?|intros ?; cbn; tauto].
  pose proof (lv_flush_loop fuel u) as H. revert H. generalize (udp_flush_loop fuel u).
  induction p as [y|w| |bb aa dd kk IH|bb aa dd kk IH]; cbn; auto.
  destruct y as [x|[|e]]; cbn; auto.
Qed.
Lemma ok_udp_send_data fuel u d :
  leaves (fun r => match r with Ok n => n = len d | _ => True end) (udp_send_data fuel u d).
Proof.
  unfold udp_send_data, uE. cbv zeta.
  do 4 (apply leaves_try; [intros ?|intros ?; exact I]). reflexivity.
Qed.

Definition small_free (i : N) (tr : list event) (n : N) : Prop :=
  exists w, In (ERead (BSB_REG i) Sn_TX_FSR w (Ok tt)) tr /\ from_be w < n.

Lemma udp_socket_send_spec i fuel u d :
  i < 8 -> u_socket u = socket_new i ->
  xt (udp_socket_send fuel u d) (fun tr o =>
    match o with
    | Done (Err (NbOther e)) => is_ugate e -> only_reads tr /\ ugate i (u_dest u) tr e
    | Done (Ok n) => n = len d \/ small_free i tr (len d)
    | _ => True
    end).
Proof.
  intros Hi Hu. destruct (socket_blocks i Hi) as (E1 & _).
  unfold udp_socket_send. rewrite Hu. cbv zeta.
  apply xt_try_get.
  2: { intros g e L. cbn. tauto. }
  intros g L. destruct g as [|b [|]]; try discriminate L. clear L. cbn [byte0 hd]. rewrite E1.
  rewrite status_gate. destruct (N.eqb_spec (b2n b) SOCK_UDP) as [Eb|Eb].
  2: { apply xt_ret. intros _. split; [auto|]. destruct (known_status_dec b); exists [], b; auto. }
  destruct (u_dest u) as [dst|] eqn:Ed.
  2: { apply xt_ret. intros _. split; [auto|]. reflexivity. }
  apply xt_try_get.
  2: { intros g e L. cbn. tauto. }
  intros w L. rewrite E1. destruct (N.eqb_spec (from_be w) 0) as [W0|W0].
  { apply xt_ret. intros _. split; [auto|]. exists [ERead (BSB_REG i) s_STATUS [b] (Ok tt)], w. auto. }
  assert (K : forall front, (front = d \/ from_be w < len d) -> xt (udp_send_data fuel u front) (fun tr o =>
    match o with
    | Done (Err (NbOther e)) => is_ugate e -> only_reads (ERead (BSB_REG i) s_STATUS [b] (Ok tt)
         :: ERead (BSB_REG i) s_TX_FREE_SIZE w (Ok tt) :: tr) /\
         ugate i (Some dst) (ERead (BSB_REG i) s_STATUS [b] (Ok tt)
         :: ERead (BSB_REG i) s_TX_FREE_SIZE w (Ok tt) :: tr) e
    | Done (Ok n) => n = len d \/ small_free i (ERead (BSB_REG i) s_STATUS [b] (Ok tt)
         :: ERead (BSB_REG i) s_TX_FREE_SIZE w (Ok tt) :: tr) (len d)
    | _ => True
    end)).
  { intros front Hf tr o X Hc.
    pose proof (xt_leaves _ _ (lv_udp_send_data fuel u front) tr o X Hc) as H1.
    pose proof (xt_leaves _ _ (ok_udp_send_data fuel u front) tr o X Hc) as H2.
    destruct o as [[n|[|e]]| | |]; auto; [|tauto].
    destruct Hf as [->|Hf]; [auto|]. right. exists w. split; [cbn; auto|exact Hf]. }
  destruct (N.ltb_spec (len d) (from_be w)); [apply K; auto|].
  unfold slice_to. destruct (_ <=? _); [|now apply xt_panic]. apply K.
  destruct (N.eq_dec (from_be w) (len d)) as [E|]; [left|right; lia]. rewrite E. apply take_len.
Qed.

Lemma udp_send_loop_spec i fuel u d : i < 8 -> u_socket u = socket_new i ->
  forall outer free total,
  xt (udp_send_loop outer fuel u d free total) (fun tr o =>
    match o with
    | Done (Err (NbOther e)) => is_ugate e -> ugate i (u_dest u) tr e
    | _ => True
    end).
Proof.
  intros Hi Hu. induction outer as [|outer IH]; intros free total; cbn [udp_send_loop].
  { destruct (_ =? _); [now apply xt_ret|now apply xt_spin]. }
  destruct (_ =? _); [now apply xt_ret|].
  unfold slice_from. destruct (_ <=? _); [|now apply xt_panic]. cbv zeta.
  unfold slice_to. destruct (_ <=? _); [|now apply xt_panic].
  apply xt_try. eapply xt_mono; [|apply (udp_socket_send_spec i); auto].
  cbv beta. intros tr [[n|[|e]]|w| |] H; try exact I.
  - apply xt_try_get.
    + intros g L. eapply xt_mono; [|apply IH]. cbv beta. intros tr2 [[m|[|e]]|w| |] H2; auto.
      intros He. specialize (H2 He). change (ERead ?b ?a ?g ?r :: tr2) with ([ERead b a g r] ++ tr2).
      rewrite app_assoc. now apply ugate_app.
    + intros g e L. cbn. tauto.
  - intros He. now apply H.
Qed.

Lemma udp_send_loop_done outer fuel u d free total :
  total = len d -> udp_send_loop outer fuel u d free total = Ret (Ok tt).
Proof. intros ->. destruct outer; cbn [udp_send_loop]; now rewrite N.eqb_refl. Qed.

Lemma udp_send_gate i fuel u buf :
  i < 8 -> u_socket u = socket_new i ->
  xt (udp_send fuel u buf) (fun tr o =>
    (* the status is read first and decides *)
    (exists b q rest, tr = ERead (BSB_REG i) Sn_SR [b] q :: rest /\
      (q = Ok tt -> b2n b <> SOCK_UDP -> known_status b ->
         rest = [] /\ o = Done (Err (NbOther USocketNotOpen))) /\
      (q = Ok tt -> ~ known_status b -> rest = [] /\ o = Done (Err (NbOther UUnrecognisedStatus))) /\
      (q = Ok tt -> b2n b = SOCK_UDP -> u_dest u = None ->
         rest = [] /\ o = Done (Err (NbOther UDestinationNotSet))) /\
      (q = Ok tt -> b2n b = SOCK_UDP -> u_dest u <> None ->
         exists w q2 rest2, rest = ERead (BSB_REG i) Sn_TX_FSR w q2 :: rest2 /\
           (q2 = Ok tt -> from_be w = 0 -> rest2 = [] /\ o = Done (Err (NbOther UBufferFull))))) /\
    (* and conversely *)
    (forall e, o = Done (Err (NbOther e)) -> is_ugate e ->
       ugate i (u_dest u) tr e /\ (only_reads tr \/ small_free i tr (len buf)))).
Proof.
  intros Hi Hu. destruct (socket_blocks i Hi) as (E1 & _).
  unfold udp_send, udp_send_all. rewrite Hu. cbv zeta.
  apply xt_try_get.
  2: { intros g e L. destruct g as [|b [|]]; try discriminate L. clear L. rewrite E1. split.
       - exists b, (Err e), []. split; [reflexivity|]. repeat split; discriminate.
       - intros e0 [= <-] []. }
  intros g L. destruct g as [|b [|]]; try discriminate L. clear L. cbn [byte0 hd]. rewrite E1.
  assert (KU : b2n b = SOCK_UDP -> known_status b).
  { intros E. unfold known_status. rewrite E. cbn. tauto. }
  rewrite status_gate. destruct (N.eqb_spec (b2n b) SOCK_UDP) as [Eb|Eb].
  2: { apply xt_ret. split.
       - exists b, (Ok tt), []. split; [reflexivity|]. destruct (known_status_dec b) as [K|K].
         + repeat split; auto; tauto.
         + repeat split; auto; tauto.
       - intros e [= <-] _. split; [|left; auto]. destruct (known_status_dec b) as [K|K]; exists [], b; auto. }
  destruct (u_dest u) as [dst|] eqn:Ed.
  2: { apply xt_ret. split.
       - exists b, (Ok tt), []. split; [reflexivity|]. repeat split; auto; try congruence; try (exfalso; tauto).
       - intros e [= <-] _. split; [reflexivity|left; auto]. }
  apply xt_try_get.
  2: { intros g e L. rewrite E1. split.
       - exists b, (Ok tt). eexists. split; [reflexivity|]. repeat split; auto; try congruence; try (exfalso; tauto).
         intros _ _ _. exists g, (Err e), []. split; [reflexivity|discriminate].
       - intros e0 [= <-] []. }
  intros w Lw. rewrite E1. destruct (N.eqb_spec (from_be w) 0) as [W0|W0].
  { apply xt_ret. split.
    - exists b, (Ok tt). eexists. split; [reflexivity|]. repeat split; auto; try congruence; try (exfalso; tauto).
      intros _ _ _. exists w, (Ok tt), []. auto.
    - intros e [= <-] _. split; [|left; auto]. exists [ERead (BSB_REG i) s_STATUS [b] (Ok tt)], w. auto. }
  intros tr o X Hc. split.
  { exists b, (Ok tt). eexists. split; [reflexivity|]. repeat split; auto; try congruence; try (exfalso; tauto).
    intros _ _ _. exists w, (Ok tt), tr. split; [reflexivity|]. intros _ H. now elim W0. }
  intros e -> He. split.
  { pose proof (udp_send_loop_spec i fuel u buf Hi Hu fuel (from_be w) 0 _ _ X Hc He) as H. rewrite Ed in H.
    change (ERead ?b1 ?a1 ?g1 ?r1 :: ERead ?b2 ?a2 ?g2 ?r2 :: tr)
      with ([ERead b1 a1 g1 r1; ERead b2 a2 g2 r2] ++ tr). now apply ugate_app. }
  destruct (N.lt_ge_cases (from_be w) (len buf)) as [Lt|Ge].
  { right. exists w. split; [cbn; auto|exact Lt]. }
  (* the whole buffer is the first batch *)
  assert (Z : xt (udp_send_loop fuel fuel u buf (from_be w) 0) (fun tr o =>
    forall e, o = Done (Err (NbOther e)) -> is_ugate e -> only_reads tr \/ small_free i tr (len buf))).
  { clear -Hi Hu Ge. destruct fuel as [|fuel]; cbn [udp_send_loop].
    { destruct (_ =? _); [apply xt_ret; discriminate|apply xt_spin; discriminate]. }
    destruct (0 =? len buf); [apply xt_ret; discriminate|].
    unfold slice_from. destruct (N.leb_spec 0 (len buf)); [|lia]. cbv zeta. rewrite drop_0.
    rewrite N.min_r by lia. unfold slice_to. destruct (N.leb_spec (len buf) (len buf)); [|lia].
    rewrite take_len. apply xt_try.
    eapply xt_mono; [|apply (udp_socket_send_spec i (S fuel) u buf); auto].
    cbv beta. intros tr1 [[n|[|e1]]|w1| |] H1; try exact I; try discriminate.
    - apply xt_try_get.
      + intros g L. destruct H1 as [-> |(w1 & Hin & Hl)].
        * rewrite udp_send_loop_done by (apply N.add_0_l). apply xt_ret. discriminate.
        * intros tr2 o2 _ _ e2 _ _. right. exists w1. split; [apply in_or_app; auto|exact Hl].
      + intros g e L e0 [= <-] [].
    - intros e [= <-] He. left. now apply H1. }
  destruct (Z _ _ X Hc e eq_refl He) as [Z1|(w1 & Hin & Hl)]; [left; auto|right].
  exists w1. split; [cbn; auto|exact Hl].
Qed.

(** ** C54: MACRAW read_frame *)
(** accesses stay within the [n] received bytes that start at [base] *)
Definition within (base n : N) (ev : event) : Prop :=
  match ev with
  | ERead b a got _ => b = BSB_RX 0 /\ exists off, a = (base + off) mod 65536 /\ off + len got <= n
  | EWrite b a d _ => b = BSB_REG 0 /\
      ((a = Sn_RX_RD /\ exists k, k <= n /\ d = to_be ((base + k) mod 65536)) \/
       (a = Sn_CR /\ d = [u8 CR_RECV]))
  end.
(** the caller's buffer keeps its length and everything behind the reported bytes *)
Definition buffer_ok (frame : list byte) (o : outcome (list byte * res N berr)) : Prop :=
  match o with
  | Done (f', r) => length f' = length frame /\
      match r with Ok m => m <= len frame /\ drop m f' = drop m frame | Err _ => True end
  | _ => True
  end.

Lemma drop_app {A} (a b : list A) n : n = len a -> drop n (a ++ b) = b.
Proof. intros ->. apply drop_app_exact. Qed.

Lemma xt_rx_commit c base n k :
  k <= n -> ptr c = (base + k) mod 65536 ->
  xt (rx_commit (socket_new 0) c) (fun tr o =>
    Forall (within base n) tr /\ match o with Done _ => True | _ => False end).
Proof.
  intros Hk Hp. assert (W1 : forall r, within base n (EWrite (register (socket_new 0)) s_RX_DATA_READ_POINTER (to_be (ptr c)) r)).
  { intros r. split; [reflexivity|]. left. split; [reflexivity|]. exists k. now rewrite Hp. }
  assert (W2 : forall r, within base n (EWrite (register (socket_new 0)) s_COMMAND [u8 (command_u8 CmReceive)] r)).
  { intros r. split; [reflexivity|]. right. split; reflexivity. }
  unfold rx_commit, set_rx_read_pointer, command. apply xt_try_write.
  - apply xt_try_write.
    + apply xt_ret. auto.
    + intros e. auto.
  - intros e. auto.
Qed.

Lemma xt_rx_read c buf base n off :
  off + size c <= n -> ptr c = (base + off) mod 65536 ->
  xt (rx_read (socket_new 0) c buf) (fun tr o =>
    Forall (within base n) tr /\
    match o with
    | Done (buf', Err _) => length buf' = length buf
    | Done (buf', Ok (c', m)) => length buf' = length buf /\ m <= len buf /\ m <= size c /\ drop m buf' = drop m buf /\
         (len buf = 2 -> m = N.min (size c) 2) /\
         size c' = size c - m /\ ptr c' = (base + (off + m)) mod 65536
    | _ => False
    end).
Proof.
  intros Ho Hp. unfold rx_read. destruct buf as [|x buf0] eqn:EB.
  { apply xt_ret. split; [constructor|]. repeat split; try (cbn; lia); rewrite ?N.sub_0_r, ?N.add_0_r; auto. }
  rewrite <- EB. clear EB x buf0. cbv zeta.
  set (count := N.min (available c) (as_u16 (len buf))).
  assert (Hc : count <= len buf).
  { subst count. unfold as_u16. pose proof (N.mod_le (len buf) 65536 ltac:(discriminate)). lia. }
  assert (Hc2 : count <= size c) by (subst count; unfold available; lia).
  unfold slice_to. destruct (N.leb_spec count (len buf)); [|lia].
  apply xt_bind, xt_read. intros got r Lg. cbn [fst snd].
  assert (Lgot : len got = count) by (unfold len; rewrite Lg, length_take; unfold len in *; lia).
  assert (LL : length (got ++ drop count buf) = length buf).
  { rewrite app_length, Lg, <- app_length, take_drop. reflexivity. }
  assert (W : forall r, within base n (ERead (rx_buffer (socket_new 0)) (ptr c) got r)).
  { intros r0. split; [reflexivity|]. exists off. split; [exact Hp|]. lia. }
  destruct r as [[]|e]; apply xt_ret; (split; [cbn [List.app]; auto|]); [|exact LL].
  unfold rx_skip. cbn [size ptr]. rewrite N.min_r by (unfold available; lia).
  split; [exact LL|]. split; [exact Hc|]. split; [exact Hc2|]. split; [now apply drop_app|].
  split; [|split; [reflexivity|]].
  - intros E. subst count. rewrite E. reflexivity.
  - unfold wadd16. rewrite Hp, N.add_mod_idemp_l by discriminate. f_equal. lia.
Qed.

Lemma xt_rx_upto c buf mx base n off :
  off + size c <= n -> ptr c = (base + off) mod 65536 ->
  xt (rx_read_upto (socket_new 0) c buf mx) (fun tr o =>
    Forall (within base n) tr /\
    match o with
    | Done (buf', Err _) => length buf' = length buf
    | Done (buf', Ok (c', m)) => length buf' = length buf /\ m <= len buf /\ m <= size c /\ m <= mx /\ drop m buf' = drop m buf /\
         size c' = size c - m /\ ptr c' = (base + (off + m)) mod 65536
    | _ => False
    end).
Proof.
  intros Ho Hp. unfold rx_read_upto. destruct (N.ltb_spec mx (len buf)) as [Lt|Ge].
  - unfold slice_to. destruct (N.leb_spec mx (len buf)); [|lia].
    apply xt_bind. eapply xt_mono; [|apply (xt_rx_read c (take mx buf) base n off Ho Hp)].
    cbv beta. intros tr [[b' [[c' m]|e]]|w| |] [H1 H2]; try contradiction.
    + destruct H2 as (L1 & L2 & L3 & L4 & _ & L5 & L6). apply xt_ret. rewrite app_nil_r.
      split; [exact H1|]. cbn [fst snd]. rewrite len_take in L2.
      split; [rewrite app_length, L1, <- app_length, take_drop; reflexivity|].
      split; [lia|]. split; [exact L3|]. split; [lia|]. split; [|auto].
      unfold drop in *. rewrite !skipn_app, L4. rewrite <- (take_drop mx buf) at 3. unfold take, drop.
      rewrite skipn_app. f_equal. f_equal. rewrite L1. reflexivity.
    + apply xt_ret. rewrite app_nil_r. split; [exact H1|]. cbn [fst snd].
      rewrite app_length, H2, <- app_length, take_drop. reflexivity.
  - eapply xt_mono; [|apply (xt_rx_read c buf base n off Ho Hp)].
    cbv beta. intros tr [[b' [[c' m]|e]]|w| |] [H1 H2]; try contradiction; (split; [exact H1|]); [|exact H2].
    destruct H2 as (L1 & L2 & L3 & L4 & _ & L5 & L6). repeat split; auto. lia.
Qed.

Lemma raw_read_bounds fuel frame :
  xt (raw_read_frame fuel (mkRaw (socket_new 0)) frame) (fun tr o =>
    buffer_ok frame o /\
    ((only_reads tr /\ (o = Looping \/ exists e, o = Done (frame, Err e))) \/
     exists l w p rest, differing l /\ length w = 2%nat /\ length p = 2%nat /\
       tr = size_reads (BSB_REG 0) l w ++ ERead (BSB_REG 0) Sn_RX_RD p (Ok tt) :: rest /\
       Forall (within (from_be p) (from_be w)) rest /\
       (from_be w = 0 -> rest = [] /\ o = Done (frame, Ok 0)) /\
       (forall s, o = Panicked s -> from_be w = 1))).
Proof.
  unfold raw_read_frame. cbn [raw_socket]. cbv zeta. apply xt_try. unfold rx_new. apply xt_try_size.
  2: { intros tr e Hr. split; [cbn; auto|]. left. split; [exact Hr|right; eauto]. }
  2: { intros tr Hr. split; [cbn; auto|]. left. auto. }
  intros l w D Lw. apply xt_try_get.
  2: { intros g e L. split; [cbn; auto|]. left. split; [|right; eauto].
       apply only_reads_app; [apply only_reads_size|auto]. }
  intros p Lp. apply xt_ret. cbn [available size ptr].
  set (n := from_be w). set (base := from_be p).
  assert (Hbase : base < 65536) by (apply from_be_lt; exact Lp).
  assert (FIN : forall rest o,
    buffer_ok frame o -> Forall (within base n) rest ->
    (n = 0 -> rest = [] /\ o = Done (frame, Ok 0)) -> (forall s, o = Panicked s -> n = 1) ->
    buffer_ok frame o /\
    ((only_reads ((size_reads (register (socket_new 0)) l w ++
          [ERead (register (socket_new 0)) s_RX_DATA_READ_POINTER p (Ok tt)]) ++ rest) /\ (o = Looping \/ exists e, o = Done (frame, Err e))) \/
     exists l0 w0 p0 rest0, differing l0 /\ length w0 = 2%nat /\ length p0 = 2%nat /\
       (size_reads (register (socket_new 0)) l w ++
          [ERead (register (socket_new 0)) s_RX_DATA_READ_POINTER p (Ok tt)]) ++ rest
       = size_reads (BSB_REG 0) l0 w0 ++ ERead (BSB_REG 0) Sn_RX_RD p0 (Ok tt) :: rest0 /\
       Forall (within (from_be p0) (from_be w0)) rest0 /\
       (from_be w0 = 0 -> rest0 = [] /\ o = Done (frame, Ok 0)) /\
       (forall s, o = Panicked s -> from_be w0 = 1))).
  { intros rest o H1 H2 H3 H4. split; [exact H1|right]. exists l, w, p, rest.
    rewrite <- app_assoc. repeat (split; [assumption || reflexivity|]). exact H4. }
  destruct (N.eqb_spec n 0) as [N0|N0].
  { apply xt_ret. apply FIN; auto; [|discriminate]. cbn. split; [auto|]. split; [lia|auto]. }
  apply xt_bind. eapply xt_mono; [|apply (xt_rx_read (mkCursor base n) (zeros 2) base n 0)].
  2: { cbn [size]. lia. }
  2: { cbn [ptr]. rewrite N.add_0_r. symmetry. now apply N.mod_small. }
  cbv beta. cbn [size ptr]. intros tr [[h [[c' m]|e]]|s| |] [H1 H2]; try contradiction; cbn [fst snd].
  2: { apply xt_ret. rewrite app_nil_r. apply FIN; auto; [cbn; auto|lia|discriminate]. }
  destruct H2 as (_ & _ & Hm & _ & Em & Es & Ep). specialize (Em eq_refl).
  destruct (N.eqb_spec m 2) as [M2|M2].
  2: { apply xt_panic. rewrite app_nil_r. apply FIN; auto; [cbn; auto|lia|]. intros _ _. lia. }
  rewrite M2 in *. clear M2 m. set (ex := ssub16 (from_be h) 2). unfold raw_read_body.
  apply xt_bind. eapply xt_mono; [|apply (xt_rx_upto c' frame ex base n (0 + 2))]; [|lia|exact Ep].
  cbv beta. intros tr2 [[f' [[c2 m2]|e]]|s| |] [K1 K2]; try contradiction; cbn [fst snd].
  2: { apply xt_ret. rewrite app_nil_r. apply FIN; [cbn; auto|now apply Forall_app|lia|discriminate]. }
  destruct K2 as (L1 & L2 & L3 & L4 & L5 & L6 & L7).
  set (c3 := if m2 <? ex then fst (rx_skip c2 (ex - m2)) else c2).
  assert (Hc3 : exists k, k <= n /\ ptr c3 = (base + k) mod 65536).
  { subst c3. destruct (m2 <? ex); [|exists (0 + 2 + m2); split; [lia|exact L7]].
    unfold rx_skip. cbn [fst ptr]. exists (0 + 2 + m2 + N.min (available c2) (ex - m2)).
    unfold available. split; [lia|]. unfold wadd16. rewrite L7, N.add_mod_idemp_l by discriminate. f_equal. lia. }
  destruct Hc3 as (k & Hk & Hk').
  apply xt_try. eapply xt_mono; [|apply (xt_rx_commit c3 base n k Hk Hk')].
  cbv beta. intros tr3 [[[]|e]|s| |] [M1 M3]; try contradiction.
  - apply xt_ret. rewrite app_nil_r. apply FIN; [cbn; auto| |lia|discriminate].
    apply Forall_app. split; [exact H1|]. apply Forall_app. auto.
  - apply FIN; [cbn; auto| |lia|discriminate].
    apply Forall_app. split; [exact H1|]. apply Forall_app. auto.
Qed.

(** ** C28: the version check *)
Lemma lv_init_rest h m :
  leaves (is_not (Err ChipNotConnected))
    (try a <- uninit_reset else (fun e => Err (SpiError e)) ;;
     try b <- dev_set_mode m else (fun e => Err (SpiError e)) ;;
     do r <- refresh h ;;
     match snd r with
     | Err e => Ret (Err (SpiError e))
     | Ok _ => Ret (Ok (ds_new (fst r)))
     end).
Proof.
  unfold is_not. apply leaves_try; [intros ?|discriminate]. apply leaves_try; [intros ?|discriminate].
  apply leaves_bind, leaves_all. intros [h' [u|e]]; cbn; discriminate.
Qed.

Lemma init_version_check h m :
  xt (initialize_with_host true h m) (fun tr o =>
    exists v q rest, tr = ERead BSB_COMMON VERSIONR [v] q :: rest /\
      (q = Ok tt -> b2n v <> 4 -> rest = [] /\ o = Done (Err ChipNotConnected)) /\
      (o = Done (Err ChipNotConnected) -> q = Ok tt /\ b2n v <> 4)) /\
  xt (initialize_with_host false h m) (fun _ o => o <> Done (Err ChipNotConnected)).
Proof.
  split.
  - unfold initialize_with_host. cbv zeta. apply xt_try. unfold assert_chip_version, dev_version.
    apply xt_try_get.
    2: { intros g e L. destruct g as [|v [|]]; try discriminate L. exists v, (Err e), [].
         split; [reflexivity|]. split; discriminate. }
    intros g L. destruct g as [|v [|]]; try discriminate L. clear L. cbn [byte0 hd].
    destruct (N.eqb_spec (b2n v) 4) as [E|E]; cbn [negb].
    + apply xt_ret. intros tr o X Hc. pose proof (xt_leaves _ _ (lv_init_rest h m) tr o X Hc) as H.
      exists v, (Ok tt), tr. split; [reflexivity|]. split; [intros _ Hn; now elim Hn|].
      intros ->. now elim H.
    + apply xt_ret. exists v, (Ok tt), []. auto.
  - unfold initialize_with_host. cbv zeta. eapply xt_mono; [|apply (xt_leaves _ _ (lv_init_rest h m))].
    cbv beta. intros tr o H ->. now elim H.
Qed.

(** ** C29: refresh *)
(** a host configuration as register contents *)
Definition hc_regs (c : HostConfig) : list (N * list byte) :=
  [(GAR, octets (hc_gateway c)); (SUBR, octets (hc_subnet c)); (SHAR, mac_octets (hc_mac c));
   (SIPR, octets (hc_ip c))].
Definition byte_list_dec : forall a b : list byte, {a = b} + {a <> b} := list_eq_dec Byte.byte_eq_dec.
(** the registers whose wanted contents differ from the recorded ones *)
Definition pending (cur want : HostConfig) : list (N * list byte) :=
  map snd (filter (fun p => if byte_list_dec (snd (fst p)) (snd (snd p)) then false else true)
    (combine (hc_regs cur) (hc_regs want))).
Definition wrote (w : N * list byte) : event := EWrite BSB_COMMON (fst w) (snd w) (Ok tt).

Lemma byte_eqb_dec a b : N.eqb (b2n a) (b2n b) = true <-> a = b.
Proof. rewrite N.eqb_eq. split; [apply b2n_inj|congruence]. Qed.
Lemma ipv4_changed a b : negb (ipv4_eqb a b) = if byte_list_dec (octets b) (octets a) then false else true.
Proof.
  destruct (byte_list_dec _ _) as [E|E].
  - destruct a, b. cbn in E. injection E as -> -> -> ->. unfold ipv4_eqb. now rewrite bytes_eqb_refl.
  - destruct (ipv4_eqb a b) eqn:H; [|reflexivity]. unfold ipv4_eqb in H. apply bytes_eqb_eq in H. congruence.
Qed.
Lemma mac_changed a b : negb (mac_eqb a b) = if byte_list_dec (mac_octets b) (mac_octets a) then false else true.
Proof.
  destruct (byte_list_dec _ _) as [E|E].
  - unfold mac_eqb. rewrite E. now rewrite bytes_eqb_refl.
  - destruct (mac_eqb a b) eqn:H; [|reflexivity]. unfold mac_eqb in H. apply bytes_eqb_eq in H. congruence.
Qed.

Lemma byte_list_refl l : (if byte_list_dec l l then false else true) = false.
Proof. destruct (byte_list_dec l l); [reflexivity|congruence]. Qed.
Lemma octets_inj a b : octets a = octets b -> a = b.
Proof. destruct a, b. cbn. now intros [= -> -> -> ->]. Qed.
Lemma mac_octets_inj a b : mac_octets a = mac_octets b -> a = b.
Proof. destruct a, b. cbn. now intros [= -> -> -> -> -> ->]. Qed.

Lemma pending_eq cur want :
  pending cur want =
    (if byte_list_dec (octets (hc_gateway cur)) (octets (hc_gateway want)) then [] else [(GAR, octets (hc_gateway want))]) ++
    (if byte_list_dec (octets (hc_subnet cur)) (octets (hc_subnet want)) then [] else [(SUBR, octets (hc_subnet want))]) ++
    (if byte_list_dec (mac_octets (hc_mac cur)) (mac_octets (hc_mac want)) then [] else [(SHAR, mac_octets (hc_mac want))]) ++
    (if byte_list_dec (octets (hc_ip cur)) (octets (hc_ip want)) then [] else [(SIPR, octets (hc_ip want))]).
Proof.
  unfold pending, hc_regs. cbn [combine filter fst snd map].
  destruct (byte_list_dec (octets (hc_gateway cur)) _), (byte_list_dec (octets (hc_subnet cur)) _),
    (byte_list_dec (mac_octets (hc_mac cur)) _), (byte_list_dec (octets (hc_ip cur)) _); reflexivity.
Qed.

Definition settings_spec (cur want : HostConfig) (tr : list event) (o : outcome (HostConfig * res unit berr)) : Prop :=
  match o with
  | Done (c', Ok _) => tr = map wrote (pending cur want) /\ c' = want
  | Done (c', Err e) => exists done w rest, pending cur want = done ++ w :: rest /\
      tr = map wrote done ++ [EWrite BSB_COMMON (fst w) (snd w) (Err e)] /\ pending c' want = w :: rest
  | _ => False
  end.

(** one register; [P] is what is pending after it *)
Lemma xt_write_if (B : bool) a d cur cur' want k (P : list (N * list byte)) :
  pending cur want = (if B then [(a, d)] else []) ++ P ->
  (B = false -> cur = cur') ->
  xt (k cur') (fun tr o =>
    match o with
    | Done (c', Ok _) => tr = map wrote P /\ c' = want
    | Done (c', Err e) => exists done w rest, P = done ++ w :: rest /\
        tr = map wrote done ++ [EWrite BSB_COMMON (fst w) (snd w) (Err e)] /\ pending c' want = w :: rest
    | _ => False
    end) ->
  xt (write_if B a d cur cur' k) (settings_spec cur want).
Proof.
  intros HP HB HK. unfold write_if, settings_spec. rewrite HP. destruct B.
  - apply xt_try_write.
    + eapply xt_mono; [|exact HK]. cbv beta. intros tr [[c' [u|e]]|w| |] H; try contradiction.
      * destruct H as [-> ->]. split; reflexivity.
      * destruct H as (done & w & rest & -> & -> & H). exists ((a, d) :: done), w, rest. auto.
    + intros e. exists [], (a, d), P. rewrite HP. auto.
  - rewrite (HB eq_refl). exact HK.
Qed.

Ltac refl_dec := repeat match goal with
  | |- context [byte_list_dec ?l ?l] => destruct (byte_list_dec l l); [|congruence] end.

Lemma xt_write_settings cur want : xt (write_settings cur want) (settings_spec cur want).
Proof.
  destruct cur as [cm ci cg cs], want as [wm wi wg ws].
  unfold write_settings. cbn [hc_gateway hc_subnet hc_mac hc_ip hc_set_gateway hc_set_subnet hc_set_mac hc_set_ip].
  rewrite ipv4_changed.
  apply xt_write_if with (P := pending (mkHC cm ci wg cs) (mkHC wm wi wg ws)).
  { rewrite !pending_eq. cbn [hc_gateway hc_subnet hc_mac hc_ip hc_set_gateway hc_set_subnet hc_set_mac hc_set_ip]. refl_dec.
    destruct (byte_list_dec (octets cg) _); reflexivity. }
  { destruct (byte_list_dec _ _) as [E|]; [|discriminate]. apply octets_inj in E. now subst. }
  fold (settings_spec (mkHC cm ci wg cs) (mkHC wm wi wg ws)).
  cbn [hc_gateway hc_subnet hc_mac hc_ip hc_set_gateway hc_set_subnet hc_set_mac hc_set_ip]. rewrite ipv4_changed.
  apply xt_write_if with (P := pending (mkHC cm ci wg ws) (mkHC wm wi wg ws)).
  { rewrite !pending_eq. cbn [hc_gateway hc_subnet hc_mac hc_ip hc_set_gateway hc_set_subnet hc_set_mac hc_set_ip]. refl_dec.
    destruct (byte_list_dec (octets cs) _); reflexivity. }
  { destruct (byte_list_dec _ _) as [E|]; [|discriminate]. apply octets_inj in E. now subst. }
  fold (settings_spec (mkHC cm ci wg ws) (mkHC wm wi wg ws)).
  cbn [hc_gateway hc_subnet hc_mac hc_ip hc_set_gateway hc_set_subnet hc_set_mac hc_set_ip]. rewrite mac_changed.
  apply xt_write_if with (P := pending (mkHC wm ci wg ws) (mkHC wm wi wg ws)).
  { rewrite !pending_eq. cbn [hc_gateway hc_subnet hc_mac hc_ip hc_set_gateway hc_set_subnet hc_set_mac hc_set_ip]. refl_dec.
    destruct (byte_list_dec (mac_octets cm) _); reflexivity. }
  { destruct (byte_list_dec _ _) as [E|]; [|discriminate]. apply mac_octets_inj in E. now subst. }
  fold (settings_spec (mkHC wm ci wg ws) (mkHC wm wi wg ws)).
  cbn [hc_gateway hc_subnet hc_mac hc_ip hc_set_gateway hc_set_subnet hc_set_mac hc_set_ip]. rewrite ipv4_changed.
  apply xt_write_if with (P := []).
  { rewrite !pending_eq. cbn [hc_gateway hc_subnet hc_mac hc_ip hc_set_gateway hc_set_subnet hc_set_mac hc_set_ip]. refl_dec.
    destruct (byte_list_dec (octets ci) _); reflexivity. }
  { destruct (byte_list_dec _ _) as [E|]; [|discriminate]. apply octets_inj in E. now subst. }
  apply xt_ret. auto.
Qed.

(** [n] calls of refresh, with their results *)
Fixpoint refreshes (n : nat) (h : host) : prog (host * list (res unit berr)) :=
  match n with
  | O => Ret (h, [])
  | S n' => do r <- refresh h ;; do rs <- refreshes n' (fst r) ;; Ret (fst rs, snd r :: snd rs)
  end.

(** the writes of a trace that succeeded *)
Definition successful (tr : list event) : list (N * list byte) :=
  flat_map (fun ev => match ev with EWrite b a d (Ok _) => if b =? BSB_COMMON then [(a, d)] else [] | _ => [] end) tr.
Lemma successful_wrote l : successful (map wrote l) = l.
Proof. induction l as [|[a d] l IH]; [reflexivity|]. unfold successful in *. cbn. now rewrite IH. Qed.
Lemma successful_app a b : successful (a ++ b) = successful a ++ successful b.
Proof. apply flat_map_app. Qed.

Lemma refreshes_done n want cur :
  xt (refreshes n (Manual true want cur)) (fun tr o =>
    tr = [] /\ o = Done (Manual true want cur, repeat (Ok tt) n)).
Proof.
  induction n as [|n IH]; cbn [refreshes refresh].
  - apply xt_ret. auto.
  - apply xt_bind, xt_ret. apply xt_bind. eapply xt_mono; [|exact IH]. cbv beta.
    intros tr o [-> ->]. apply xt_ret. auto.
Qed.

Lemma refreshes_spec n want : forall cur,
  xt (refreshes n (Manual false want cur)) (fun tr o =>
    exists h rs, o = Done (h, rs) /\ Forall (fun ev => is_write ev = true) tr /\
    ((* all failed so far: a prefix is on the chip, the rest is pending *)
     (exists cur', h = Manual false want cur' /\ (forall r, In r rs -> exists e, r = Err e) /\
        length rs = n /\ pending cur want = successful tr ++ pending cur' want) \/
     (* one succeeded: everything was written, each register once and in order; later calls do nothing *)
     (exists es k, h = Manual true want want /\ rs = map Err es ++ Ok tt :: repeat (Ok tt) k /\
        successful tr = pending cur want))).
Proof.
  induction n as [|n IH]; intros cur; cbn [refreshes].
  { apply xt_ret. exists (Manual false want cur), []. split; [reflexivity|]. split; [constructor|].
    left. exists cur. repeat split; auto. intros r []. }
  apply xt_bind. unfold refresh. apply xt_bind. eapply xt_mono; [|apply xt_write_settings].
  unfold settings_spec. intros tr [[c' [u|e]]|w| |] H; try contradiction; cbn [fst snd].
  - destruct H as [-> ->]. apply xt_ret. cbn [fst snd]. rewrite app_nil_r. apply xt_bind.
    eapply xt_mono; [|apply refreshes_done]. cbv beta. intros tr o [-> ->]. apply xt_ret. cbn [fst snd].
    rewrite !app_nil_r. eexists _, _. split; [reflexivity|]. split.
    + apply Forall_forall. intros ev Hin. apply in_map_iff in Hin as (x & <- & _). reflexivity.
    + right. exists [], n. destruct u. split; [reflexivity|]. split; [reflexivity|apply successful_wrote].
  - destruct H as (done & w & rest & HP & -> & HP'). apply xt_ret. cbn [fst snd]. rewrite app_nil_r. apply xt_bind.
    eapply xt_mono; [|apply IH]. cbv beta. intros tr o (h & rs & -> & HW & HH). apply xt_ret. cbn [fst snd].
    rewrite app_nil_r. exists h, (Err e :: rs). split; [reflexivity|]. split.
    { apply Forall_app. split; [|exact HW]. apply Forall_app. split; [|repeat constructor].
      apply Forall_forall. intros ev Hin. apply in_map_iff in Hin as (x & <- & _). reflexivity. }
    rewrite !successful_app, successful_wrote. replace (successful [EWrite _ _ _ (Err e)]) with (@nil (N * list byte)) by reflexivity.
    rewrite app_nil_r.
    destruct HH as [(cur' & -> & Hr & HL & Hp)|(es & k & -> & -> & Hs)].
    + left. exists cur'. split; [reflexivity|]. split; [|split].
      * intros r [<-|Hin]; [eauto|auto].
      * cbn. now f_equal.
      * rewrite HP, <- HP', Hp. now rewrite app_assoc.
    + right. exists (e :: es), k. split; [reflexivity|]. split; [reflexivity|]. now rewrite Hs, HP, HP'.
Qed.

(** ** C52 *)
(** backwards: what each refusal means *)
Lemma urecv_refusal i buf tr buf' x : urecv i buf tr (Done (buf', Err x)) ->
  match x with
  | NbOther USocketNotOpen =>
      buf' = buf /\ exists b, tr = [ERead (BSB_REG i) Sn_SR [b] (Ok tt)] /\ known_status b /\ b2n b <> SOCK_UDP
  | NbOther UUnrecognisedStatus =>
      buf' = buf /\ exists b, tr = [ERead (BSB_REG i) Sn_SR [b] (Ok tt)] /\ ~ known_status b
  | WouldBlock =>
      buf' = buf /\ exists b f, b2n b = SOCK_UDP /\
        ((tr = [ERead (BSB_REG i) Sn_SR [b] (Ok tt); ERead (BSB_REG i) Sn_IR [f] (Ok tt)] /\
          N.testbit (b2n f) 2 = false) \/
         (N.testbit (b2n f) 2 = true /\ exists l w, differing l /\ length w = 2%nat /\ from_be w = 0 /\
            tr = [ERead (BSB_REG i) Sn_SR [b] (Ok tt); ERead (BSB_REG i) Sn_IR [f] (Ok tt)]
                   ++ size_reads (BSB_REG i) l w))
  | NbOther UBufferOverflow =>
      buf' = buf /\ buf = [] /\ exists b f l w, b2n b = SOCK_UDP /\ N.testbit (b2n f) 2 = true /\
        differing l /\ length w = 2%nat /\ from_be w <> 0 /\
        tr = [ERead (BSB_REG i) Sn_SR [b] (Ok tt); ERead (BSB_REG i) Sn_IR [f] (Ok tt)]
               ++ size_reads (BSB_REG i) l w
  | NbOther (UOther _) => True
  | NbOther _ => False
  end.
Proof.
  intros H. inversion H; subst; try exact I.
  - destruct K as [K|K]; (split; [reflexivity|]); eauto.
  - split; [reflexivity|]. exists b, f. split; [assumption|]. left. auto.
  - split; [reflexivity|]. exists b, f. split; [assumption|]. right. split; [assumption|]. exists l, w. auto.
  - split; [reflexivity|]. split; [reflexivity|]. exists b, f, l, w. auto 8.
Qed.

Lemma exec_size_loop {R} fuel s (h : berr -> R) k : forall l w rest o,
  differing l -> length w = 2%nat ->
  exec (try_ (get_receive_size fuel s) h k) (size_reads (register s) l w ++ rest) o ->
  exec (k (from_be w)) rest o.
Proof.
  induction fuel as [|fuel IH]; intros l w rest o D L X.
  { unfold size_reads in X. cbn in X. inversion X; subst;
      match goal with E : [] = _ |- _ => destruct l; discriminate E end. }
  cbn [get_receive_size] in X. unfold try_, read_reg in X. cbn [bind] in X.
  unfold size_reads in X. destruct l as [|[w1 w2] l]; cbn in X.
  - inversion X; subst. clear X. cbn [fst snd bind] in *. 
    match goal with Y : exec (BusRead _ _ _ _) _ _ |- _ => inversion Y; subst end.
    cbn [fst snd bind] in *. rewrite bytes_eqb_refl in *. cbn [bind] in *. assumption.
  - inversion D; subst. cbn [fst snd] in *.
    inversion X; subst. clear X. cbn [fst snd bind] in *. 
    match goal with Y : exec (BusRead _ _ _ _) _ _ |- _ => inversion Y; subst end.
    cbn [fst snd bind] in *.
    assert (E : bytes_eqb w1 w2 = false) by (now apply bytes_eqb_neq). rewrite E in *.
    eapply IH; eauto.
Qed.

(** forwards: when each refusal is given; [o] is an outcome of [udp_receive] or of its inner function *)
Definition refuses {A} (i : N) (buf : list byte) (tr : list event)
    (o : outcome (list byte * res A (nberr uerr))) : Prop :=
  exists b q rest, tr = ERead (BSB_REG i) Sn_SR [b] q :: rest /\
    (q = Ok tt -> b2n b <> SOCK_UDP -> known_status b -> rest = [] /\ o = Done (buf, Err (NbOther USocketNotOpen))) /\
    (q = Ok tt -> ~ known_status b -> rest = [] /\ o = Done (buf, Err (NbOther UUnrecognisedStatus))) /\
    (q = Ok tt -> b2n b = SOCK_UDP ->
       exists f q2 rest2, rest = ERead (BSB_REG i) Sn_IR [f] q2 :: rest2 /\
         (q2 = Ok tt -> N.testbit (b2n f) 2 = false -> rest2 = [] /\ o = Done (buf, Err WouldBlock)) /\
         (q2 = Ok tt -> N.testbit (b2n f) 2 = true ->
            forall l w rest3, differing l -> length w = 2%nat -> rest2 = size_reads (BSB_REG i) l w ++ rest3 ->
              (from_be w = 0 -> rest3 = [] /\ o = Done (buf, Err WouldBlock)) /\
              (from_be w <> 0 -> buf = [] -> rest3 = [] /\ o = Done (buf, Err (NbOther UBufferOverflow))))).

Lemma udp_socket_receive_refuses i fuel u buf :
  i < 8 -> u_socket u = socket_new i -> xt (udp_socket_receive fuel u buf) (refuses i buf).
Proof.
  intros Hi Hu. destruct (socket_blocks i Hi) as (E1 & E2 & E3 & _).
  unfold udp_socket_receive. rewrite Hu. cbv zeta.
  apply xt_try_get.
  2: { intros g e L. destruct g as [|b [|]]; try discriminate L. rewrite E1.
       exists b, (Err e), []. split; [reflexivity|]. split; [discriminate|]. split; discriminate. }
  intros g L. destruct g as [|b [|]]; try discriminate L. clear L. cbn [byte0 hd]. rewrite E1.
  rewrite status_gate. destruct (N.eqb_spec (b2n b) SOCK_UDP) as [Eb|Eb].
  2: { apply xt_ret. exists b, (Ok tt), []. split; [reflexivity|].
       destruct (known_status_dec b) as [K|K].
       - split; [auto|]. split; [intros; contradiction|]. intros; contradiction.
       - split; [intros; contradiction|]. split; [auto|]. intros; contradiction. }
  assert (Kb : known_status b).
  { destruct (known_status_dec b) as [K|K]; [exact K|]. exfalso. apply K. unfold known_status. rewrite Eb. cbn; tauto. }
  apply xt_try_get.
  2: { intros g e L. destruct g as [|f [|]]; try discriminate L. rewrite E1.
       exists b, (Ok tt). eexists. split; [reflexivity|]. split; [intros; contradiction|]. split; [intros; contradiction|].
       intros _ _. exists f, (Err e), []. split; [reflexivity|]. split; discriminate. }
  intros g L. destruct g as [|f [|]]; try discriminate L. clear L. cbn [byte0 hd]. rewrite E1.
  change (interrupt_u8 InReceive) with 4. rewrite land_bit.
  intros tr o X Hc. exists b, (Ok tt). eexists. split; [reflexivity|]. split; [intros; contradiction|].
  split; [intros; contradiction|]. intros _ _. exists f, (Ok tt). eexists. split; [reflexivity|].
  split; intros _ F; rewrite F in X; cbn [negb] in X.
  - apply exec_Ret_inv in X as [-> [-> | ->]]; [auto|congruence].
  - intros l w rest3 D Lw ->. rewrite <- E1 in X. apply exec_size_loop in X; auto. split.
    + intros W0. rewrite W0 in X. cbn [N.eqb] in X. apply exec_Ret_inv in X as [-> [-> | ->]]; [auto|congruence].
    + intros W0 ->. destruct (N.eqb_spec (from_be w) 0); [contradiction|]. cbn [len length N.of_nat N.eqb] in X.
      apply exec_Ret_inv in X as [-> [-> | ->]]; [auto|congruence].
Qed.

Lemma udp_receive_refuses i fuel u buf :
  i < 8 -> u_socket u = socket_new i -> xt (udp_receive fuel u buf) (refuses i buf).
Proof.
  intros Hi Hu. unfold udp_receive. apply xt_bind.
  eapply xt_mono; [|exact (udp_socket_receive_refuses i fuel u buf Hi Hu)]. cbv beta.
  assert (G : forall A0 tr (o : outcome (list byte * res (N * sockaddr) (nberr uerr))) (o' : outcome (list byte * res A0 (nberr uerr))),
    refuses i buf tr o' ->
    (forall x, o' = Done (buf, Err x) -> o = Done (buf, Err x)) -> refuses i buf tr o).
  { intros A0 tr o o' (b & q & rest & -> & H1 & H2 & H3) T. exists b, q, rest. split; [reflexivity|].
    split; [intros A B C; destruct (H1 A B C); auto|]. split; [intros A B; destruct (H2 A B); auto|].
    intros A B. destruct (H3 A B) as (f & q2 & rest2 & -> & H4 & H5). exists f, q2, rest2. split; [reflexivity|].
    split; [intros A' B'; destruct (H4 A' B'); auto|]. intros A' B' l w rest3 D L E.
    destruct (H5 A' B' l w rest3 D L E) as [H6 H7].
    split; [intros Z; destruct (H6 Z); auto|intros Z Z'; destruct (H7 Z Z'); auto]. }
  intros tr o R. destruct o as [[buf' r]|w| |].
  - apply xt_ret. rewrite app_nil_r. eapply G; [exact R|]. intros x E. injection E as -> ->. reflexivity.
  - eapply G; [exact R|]. discriminate.
  - eapply G; [exact R|]. discriminate.
  - exact I.
Qed.
