(** The number of times a busy-wait may poll is no part of what a program does. *)
From Verif Require Import Life ChipLogic ProgFacts Asleep RawHistory Adaptive Spi SpiChip Wire.

(** [q] does what [p] does as far as [p] goes; where [p] gives up polling, [q] may go on *)
Fixpoint ext {A} (p q : prog A) : Prop :=
  match p with
  | Spin => True
  | Ret a => q = Ret a
  | Panic w => q = Panic w
  | BusRead b a d k => exists k', q = BusRead b a d k' /\ forall r, ext (k r) (k' r)
  | BusWrite b a d k => exists k', q = BusWrite b a d k' /\ forall r, ext (k r) (k' r)
  end.
Lemma ext_refl {A} (p : prog A) : ext p p.
Proof. induction p; cbn; eauto. Qed.
Lemma ext_bind {A B} (p q : prog A) (f g : A -> prog B) : ext p q -> (forall a, ext (f a) (g a)) -> ext (bind p f) (bind q g).
Proof.
  revert q. induction p as [a|w| |b a d k IH|b a d k IH]; cbn [ext bind]; intros q E F.
  - subst q. apply F.
  - subst q. reflexivity.
  - exact Logic.I.
  - destruct E as (k' & -> & H). cbn [bind]. eexists. split; [reflexivity|]. intros r. now apply IH.
  - destruct E as (k' & -> & H). cbn [bind]. eexists. split; [reflexivity|]. intros r. now apply IH.
Qed.
Lemma ext_try {A E R} (p q : prog (res A E)) (h : E -> R) k k' : ext p q -> (forall a, ext (k a) (k' a)) -> ext (try_ p h k) (try_ q h k').
Proof. intros H Hk. apply ext_bind; [exact H|]. intros [a|x]; [apply Hk|apply ext_refl]. Qed.
Lemma ext_slice_to {R} w n l (k k' : list byte -> prog R) : (forall x, ext (k x) (k' x)) -> ext (slice_to w n l k) (slice_to w n l k').
Proof. intros H. unfold slice_to. destruct (_ <=? _); [apply H|reflexivity]. Qed.
Lemma ext_slice_from {R} w n l (k k' : list byte -> prog R) : (forall x, ext (k x) (k' x)) -> ext (slice_from w n l k) (slice_from w n l k').
Proof. intros H. unfold slice_from. destruct (_ <=? _); [apply H|reflexivity]. Qed.

(** ** What follows for the executions *)
Lemma ext_exec {A} (p q : prog A) tr o : exec p tr o -> ext p q -> o <> Looping -> exec q tr o.
Proof.
  intros X. revert q. induction X; cbn [ext]; intros q E N; try (subst q; constructor).
  - constructor.
  - now elim N.
  - destruct E as (k' & -> & E). constructor; auto.
  - destruct E as (k' & -> & E). constructor; auto.
Qed.
Lemma ext_exec_inv {A} (p q : prog A) : ext p q -> forall tr o, exec q tr o -> exec p tr o \/ exists t1 t2, tr = t1 ++ t2 /\ exec p t1 Looping.
Proof.
  revert q. induction p as [a|w| |b a d k IH|b a d k IH]; cbn [ext]; intros q E tr o X.
  - subst q. now left.
  - subst q. now left.
  - right. exists [], tr. split; [reflexivity|constructor].
  - destruct E as (k' & -> & E). inversion X; subst; [left; constructor|].
    match goal with Y : exec (k' _) _ _ |- _ => destruct (IH _ _ (E _) _ _ Y) as [Z|(t1 & t2 & -> & Z)] end.
    + left. constructor; auto.
    + right. eexists (_ :: t1), t2. split; [reflexivity|]. constructor; auto.
  - destruct E as (k' & -> & E). inversion X; subst; [left; constructor|].
    match goal with Y : exec (k' _) _ _ |- _ => destruct (IH _ _ (E _) _ _ Y) as [Z|(t1 & t2 & -> & Z)] end.
    + left. constructor; auto.
    + right. eexists (_ :: t1), t2. split; [reflexivity|]. constructor; auto.
Qed.
Lemma ext_run {A} e (p q : prog A) : ext p q -> forall s, fst (run e p s) <> Looping -> run e q s = run e p s.
Proof.
  revert q. induction p as [a|w| |b a d k IH|b a d k IH]; cbn [ext]; intros q E s N.
  - subst q. reflexivity.
  - subst q. reflexivity.
  - now elim N.
  - destruct E as (k' & -> & E). cbn [run] in *. destruct (bus_read e b a d s) as [r s']. now apply IH.
  - destruct E as (k' & -> & E). cbn [run] in *. destruct (bus_write e b a d s) as [r s']. now apply IH.
Qed.
(** ** and on the wires, whatever drives them *)
Lemma ext_spi_run {A} rd wr e (p q : prog A) : ext p q -> forall x, fst (spi_run e (plug rd wr p) x) <> Looping ->
  spi_run e (plug rd wr q) x = spi_run e (plug rd wr p) x.
Proof.
  assert (B : forall X Y (m : sprog X) (f g : X -> sprog Y), (forall a x, fst (spi_run e (f a) x) <> Looping -> spi_run e (g a) x = spi_run e (f a) x) ->
    forall x, fst (spi_run e (sbind m f) x) <> Looping -> spi_run e (sbind m g) x = spi_run e (sbind m f) x).
  { intros X Y m f g H. induction m as [a|w| |ops k IH|l k IH|l k IH]; cbn [sbind spi_run]; intros x N; auto.
    - destruct (fails e _) as [[]|]; destruct (spi_ops _ _ _ _); now apply IH.
    - destruct (fails e _) as [[]|]; destruct (spi_bytes _ _ _); now apply IH.
    - destruct (fails e _) as [[]|]; destruct (spi_bytes _ _ _); now apply IH. }
  revert q. induction p as [a|w| |b a d k IH|b a d k IH]; cbn [ext]; intros q E x N.
  - subst q. reflexivity.
  - subst q. reflexivity.
  - now elim N.
  - destruct E as (k' & -> & E). cbn [plug] in *. apply B; [|exact N]. intros r x'. apply IH, E.
  - destruct E as (k' & -> & E). cbn [plug] in *. apply B; [|exact N]. intros r x'. apply IH, E.
Qed.
Lemma ext_sexec {A} rd wr (p q : prog A) : ext p q -> forall tr o, o <> Looping -> sexec (plug rd wr p) tr o -> sexec (plug rd wr q) tr o.
Proof.
  assert (B : forall X Y (m : sprog X) (f g : X -> sprog Y), (forall a tr o, o <> Looping -> sexec (f a) tr o -> sexec (g a) tr o) ->
    forall tr o, o <> Looping -> sexec (sbind m f) tr o -> sexec (sbind m g) tr o).
  { intros X Y m f g H. induction m as [a|w| |ops k IH|l k IH|l k IH]; cbn [sbind]; intros tr o N Z; eauto; inversion Z; subst; constructor; auto. }
  revert q. induction p as [a|w| |b a d k IH|b a d k IH]; cbn [ext]; intros q E tr o N X.
  - subst q. exact X.
  - subst q. exact X.
  - cbn [plug] in X. inversion X; subst; [constructor|congruence].
  - destruct E as (k' & -> & E). cbn [plug] in *. eapply B; [|exact N|exact X]. intros r tr' o' N'. now apply IH.
  - destruct E as (k' & -> & E). cbn [plug] in *. eapply B; [|exact N|exact X]. intros r tr' o' N'. now apply IH.
Qed.

(** ** The loops *)
Ltac ext1 := match goal with
  | |- ext ?p ?p => apply ext_refl
  | |- ext (try_ _ _ _) (try_ _ _ _) => apply ext_try; [|intros ?]
  | |- ext (bind _ _) (bind _ _) => apply ext_bind; [|intros ?]
  | |- ext (slice_to _ _ _ _) (slice_to _ _ _ _) => apply ext_slice_to; intros ?
  | |- ext (slice_from _ _ _ _) (slice_from _ _ _ _) => apply ext_slice_from; intros ?
  | |- ext (match ?x with _ => _ end) (match ?x with _ => _ end) => destruct x
  end.
Ltac exts := repeat ext1.
Lemma ext_size s : forall n m, (n <= m)%nat -> ext (get_receive_size n s) (get_receive_size m s).
Proof. induction n as [|n IH]; intros [|m] L; try exact Logic.I; [inversion L|]. cbn [get_receive_size]. exts. apply IH. lia. Qed.
Lemma ext_sendok s : forall n m, (n <= m)%nat -> ext (wait_send_ok n s) (wait_send_ok m s).
Proof. induction n as [|n IH]; intros [|m] L; try exact Logic.I; [inversion L|]. cbn [wait_send_ok]. exts. apply IH. lia. Qed.
Lemma ext_connect_wait t : forall n m, (n <= m)%nat -> ext (tcp_connect_wait n t) (tcp_connect_wait m t).
Proof. induction n as [|n IH]; intros [|m] L; try exact Logic.I; [inversion L|]. cbn [tcp_connect_wait]. exts; apply IH; lia. Qed.
Lemma ext_flush u : forall n m, (n <= m)%nat -> ext (udp_flush_loop n u) (udp_flush_loop m u).
Proof. induction n as [|n IH]; intros [|m] L; try exact Logic.I; [inversion L|]. cbn [udp_flush_loop]. exts; apply IH; lia. Qed.
Lemma ext_udp_socket_send n m u d : (n <= m)%nat -> ext (udp_socket_send n u d) (udp_socket_send m u d).
Proof. intros L. unfold udp_socket_send, udp_send_data, udp_block_send_command. exts; now apply ext_flush. Qed.
Lemma ext_udp_loop n m u d : (n <= m)%nat -> forall k k' fs ts, (k <= k')%nat -> ext (udp_send_loop k n u d fs ts) (udp_send_loop k' m u d fs ts).
Proof.
  intros L. induction k as [|k IH]; intros [|k'] fs ts Lk; cbn [udp_send_loop]; try lia; destruct (_ =? _); try exact Logic.I; try apply ext_refl.
  exts; [now apply ext_udp_socket_send|]. apply IH. lia.
Qed.
(** ** The calls *)
Section More.
  Context (n m : nat) (L : (n <= m)%nat).
  Lemma ext_udp_all u d : ext (udp_send_all n u d) (udp_send_all m u d).
  Proof. unfold udp_send_all. exts. now apply ext_udp_loop. Qed.
  Lemma ext_step a o : ext (step n a o) (step m a o).
  Proof.
    destruct o; cbn [step]; exts.
    - unfold tcp_connect, tcp_socket_connect, tcp_do_connect. exts; now apply ext_connect_wait.
    - unfold tcp_send, tcp_socket_send, tcp_send_data. exts; now apply ext_sendok.
    - unfold tcp_receive, tcp_socket_receive. exts; now apply ext_size.
    - apply ext_udp_all.
    - unfold udp_send_to, udp_send_to_v4. exts; apply ext_udp_all.
    - unfold udp_receive, udp_socket_receive. exts; now apply ext_size.
    - destruct q; cbn [run_sockop]; exts; now apply ext_size.
  Qed.
  Lemma ext_raw d o : ext (raw_step n d o) (raw_step m d o).
  Proof.
    destruct o; cbn [raw_step]; exts.
    - unfold raw_read_frame, rx_new. exts; now apply ext_size.
    - unfold raw_write_frame. exts; now apply ext_sendok.
  Qed.
  Lemma ext_lstep chk l q : ext (lstep chk n l q) (lstep chk m l q).
  Proof. unfold lstep. destruct q, (ph l); exts; first [apply ext_step|apply ext_raw]. Qed.
  Lemma ext_life chk : forall ops l, ext (run_life chk n l ops) (run_life chk m l ops).
  Proof. induction ops as [|q ops IH]; intros l; cbn [run_life]; exts; [apply ext_lstep|apply IH]. Qed.
  Lemma ext_play chk next : forall k l seen, ext (play (lstep chk n) next k l seen) (play (lstep chk m) next k l seen).
  Proof. induction k as [|k IH]; intros l seen; cbn [play]; exts; [apply ext_lstep|apply IH]. Qed.
End More.
