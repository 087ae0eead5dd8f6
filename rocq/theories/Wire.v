(** What the two [Bus] implementations ask of the SPI peripheral, for a peripheral that answers
    anything; used for C114. *)
From Verif Require Import ThreeWireFacts ProgFacts ErrorFacts.

(** ** Executions against any SPI peripheral *)
(** A transaction, a write, a transfer, each with what the peripheral answers: the contents of the
    buffers afterwards and the result. *)
Inductive spi_event :=
| WTransaction (ops : list spi_op) (got : list (list byte)) (r : res unit berr)
| WWrite (l : list byte) (r : res unit berr)
| WTransfer (l got : list byte) (r : res unit berr).
Definition op_bytes (o : spi_op) : list byte := match o with OpWrite l | OpTransferInPlace l => l end.
Inductive sexec {A : Type} : sprog A -> list spi_event -> outcome A -> Prop :=
| sexec_cut p : sexec p [] Cut
| sexec_ret a : sexec (SRet a) [] (Done a)
| sexec_panic w : sexec (SPanic w) [] (Panicked w)
| sexec_spin : sexec SSpin [] Looping
| sexec_transaction ops k got r tr o : map (@length byte) got = map (fun o => length (op_bytes o)) ops ->
    sexec (k (got, r)) tr o -> sexec (STransaction ops k) (WTransaction ops got r :: tr) o
| sexec_write l k r tr o : sexec (k r) tr o -> sexec (SWrite l k) (WWrite l r :: tr) o
| sexec_transfer l k got r tr o : length got = length l ->
    sexec (k (got, r)) tr o -> sexec (STransfer l k) (WTransfer l got r :: tr) o.
Definition spi_result (e : spi_event) : res unit berr :=
  match e with WTransaction _ _ r | WWrite _ r | WTransfer _ _ r => r end.

Lemma sexec_transaction_inv {A} ops (k : _ -> sprog A) tr o : sexec (STransaction ops k) tr o ->
  (tr = [] /\ o = Cut) \/ exists got r tr', tr = WTransaction ops got r :: tr' /\
    map (@length byte) got = map (fun o => length (op_bytes o)) ops /\ sexec (k (got, r)) tr' o.
Proof. intros X. inversion X; subst; [now left|right]. eauto 10. Qed.
Lemma sexec_write_inv {A} l (k : _ -> sprog A) tr o : sexec (SWrite l k) tr o ->
  (tr = [] /\ o = Cut) \/ exists r tr', tr = WWrite l r :: tr' /\ sexec (k r) tr' o.
Proof. intros X. inversion X; subst; [now left|right]. eauto. Qed.
Lemma sexec_transfer_inv {A} l (k : _ -> sprog A) tr o : sexec (STransfer l k) tr o ->
  (tr = [] /\ o = Cut) \/ exists got r tr', tr = WTransfer l got r :: tr' /\ length got = length l /\ sexec (k (got, r)) tr' o.
Proof. intros X. inversion X; subst; [now left|right]. eauto 10. Qed.
Lemma sexec_ret_inv {A} (a : A) tr o : sexec (SRet a) tr o -> tr = [] /\ (o = Cut \/ o = Done a).
Proof. intros X. inversion X; subst; auto. Qed.
Lemma sexec_panic_inv {A} w tr (o : outcome A) : sexec (SPanic w) tr o -> tr = [] /\ (o = Cut \/ o = Panicked w).
Proof. intros X. inversion X; subst; auto. Qed.
Lemma sexec_bind_inv {A B} (p : sprog A) (f : A -> sprog B) : forall tr o, sexec (sbind p f) tr o ->
  (exists t1 a t2, tr = t1 ++ t2 /\ sexec p t1 (Done a) /\ sexec (f a) t2 o) \/
  (exists o', sexec p tr o' /\ (forall a, o' <> Done a) /\
     match o' with Done _ => False | Panicked w => o = Panicked w | Looping => o = Looping | Cut => o = Cut end).
Proof.
  assert (C : forall q : sprog A, exists o', sexec q [] o' /\ (forall a, o' <> Done a) /\
     match o' with Done _ => False | Panicked w => @Cut B = Panicked w | Looping => @Cut B = Looping | Cut => @Cut B = Cut end).
  { intros q. exists Cut. split; [constructor|]. split; [discriminate|reflexivity]. }
  induction p as [a|w| |ops k IH|l k IH|l k IH]; cbn [sbind]; intros tr o X.
  - left. exists [], a, tr. repeat split; [constructor|exact X].
  - apply sexec_panic_inv in X as [-> [-> | ->]]; right; [apply C|]. exists (Panicked w). split; [constructor|]. split; [discriminate|reflexivity].
  - right. inversion X; subst; [apply C|]. exists Looping. split; [constructor|]. split; [discriminate|reflexivity].
  - apply sexec_transaction_inv in X as [[-> ->]|(got & r & tr' & -> & G & X)]; [right; apply C|].
    apply IH in X as [(t1 & a & t2 & -> & X1 & X2)|(o' & X1 & D & M)].
    + left. exists (WTransaction ops got r :: t1), a, t2. split; [reflexivity|]. split; [now constructor|exact X2].
    + right. exists o'. split; [now constructor|auto].
  - apply sexec_write_inv in X as [[-> ->]|(r & tr' & -> & X)]; [right; apply C|].
    apply IH in X as [(t1 & a & t2 & -> & X1 & X2)|(o' & X1 & D & M)].
    + left. exists (WWrite l r :: t1), a, t2. split; [reflexivity|]. split; [now constructor|exact X2].
    + right. exists o'. split; [now constructor|auto].
  - apply sexec_transfer_inv in X as [[-> ->]|(got & r & tr' & -> & G & X)]; [right; apply C|].
    apply IH in X as [(t1 & a & t2 & -> & X1 & X2)|(o' & X1 & D & M)].
    + left. exists (WTransfer l got r :: t1), a, t2. split; [reflexivity|]. split; [now constructor|exact X2].
    + right. exists o'. split; [now constructor|auto].
Qed.

(** ** An error ends the computation and is its result *)
Fixpoint sstop {A} (P : A -> Prop) (E : A -> option berr) (p : sprog A) : Prop :=
  match p with
  | SRet a => E a = None /\ P a
  | SPanic _ | SSpin => True
  | STransaction ops k =>
      (forall got, map (@length byte) got = map (fun o => length (op_bytes o)) ops -> sstop P E (k (got, Ok tt))) /\
      (forall got e, map (@length byte) got = map (fun o => length (op_bytes o)) ops -> exists a, k (got, Err e) = SRet a /\ E a = Some e /\ P a)
  | SWrite _ k => sstop P E (k (Ok tt)) /\ (forall e, exists a, k (Err e) = SRet a /\ E a = Some e /\ P a)
  | STransfer l k =>
      (forall got, length got = length l -> sstop P E (k (got, Ok tt))) /\
      (forall got e, length got = length l -> exists a, k (got, Err e) = SRet a /\ E a = Some e /\ P a)
  end.
Lemma sstop_bind {A B} (P : A -> Prop) (Q : B -> Prop) E E' (p : sprog A) (f : A -> sprog B) : sstop P E p ->
  (forall a, E a = None -> P a -> sstop Q E' (f a)) ->
  (forall a e, E a = Some e -> P a -> exists b, f a = SRet b /\ E' b = Some e /\ Q b) -> sstop Q E' (sbind p f).
Proof.
  intros H H1 H2. induction p as [a|w| |ops k IH|l k IH|l k IH]; cbn [sbind sstop] in *; auto.
  - destruct H as [N Pa]. now apply H1.
  - destruct H as [K1 K2]. split; [intros; apply IH; auto|]. intros got e G. destruct (K2 got e G) as (a & -> & Ea & Pa). cbn [sbind]. now apply H2.
  - destruct H as [K1 K2]. split; [apply IH; auto|]. intros e. destruct (K2 e) as (a & -> & Ea & Pa). cbn [sbind]. now apply H2.
  - destruct H as [K1 K2]. split; [intros; apply IH; auto|]. intros got e G. destruct (K2 got e G) as (a & -> & Ea & Pa). cbn [sbind]. now apply H2.
Qed.
Definition spi_reports {A} (E : A -> option berr) (p : sprog A) : Prop := forall tr o, sexec p tr o ->
  (forall t1 ev t2 e, tr = t1 ++ ev :: t2 -> spi_result ev = Err e -> t2 = [] /\ (o = Cut \/ exists x, o = Done x /\ E x = Some e)) /\
  (forall x e, o = Done x -> E x = Some e -> exists t1 ev, tr = t1 ++ [ev] /\ spi_result ev = Err e).
Lemma sstop_reports {A} P E (p : sprog A) : sstop P E p -> spi_reports E p.
Proof.
  assert (Step : forall (q : sprog A) ev r tr (o : outcome A), spi_result ev = r ->
    (match r with Ok _ => spi_reports E q | Err e => exists a, q = SRet a /\ E a = Some e end) -> sexec q tr o ->
    (forall t1 ev' t2 e, ev :: tr = t1 ++ ev' :: t2 -> spi_result ev' = Err e -> t2 = [] /\ (o = Cut \/ exists x, o = Done x /\ E x = Some e)) /\
    (forall x e, o = Done x -> E x = Some e -> exists t1 ev', ev :: tr = t1 ++ [ev'] /\ spi_result ev' = Err e)).
  { intros q ev r tr o Er H X. destruct r as [[]|e0].
    - destruct (H _ _ X) as [A1 A2]. split.
      + intros [|ev0 t1] ev' t2 e Eq R'; injection Eq as -> Eq; [congruence|]. eapply A1; eauto.
      + intros x e -> Ex. destruct (A2 x e eq_refl Ex) as (t1 & ev' & -> & R'). exists (ev :: t1), ev'. auto.
    - destruct H as (a & -> & Ea). apply sexec_ret_inv in X as [-> Ho]. split.
      + intros [|ev0 t1] ev' t2 e Eq R'; injection Eq as -> Eq; [|now destruct t1]. subst t2. split; [reflexivity|].
        rewrite Er in R'. injection R' as <-. destruct Ho as [-> | ->]; eauto.
      + intros x e -> Ex. exists [], ev. split; [reflexivity|]. destruct Ho as [[=]|[= ->]]. congruence. }
  assert (Nil : forall o : outcome A, (forall x, o = Done x -> E x = None) ->
    (forall t1 ev' t2 e, [] = t1 ++ ev' :: t2 -> spi_result ev' = Err e -> t2 = [] /\ (o = Cut \/ exists x, o = Done x /\ E x = Some e)) /\
    (forall x e, o = Done x -> E x = Some e -> exists t1 ev', [] = t1 ++ [ev'] /\ spi_result ev' = Err e)).
  { intros o H. split; [intros [|]; discriminate|]. intros x e -> Ex. rewrite (H x eq_refl) in Ex. discriminate. }
  intros H. induction p as [a|w| |ops k IH|l k IH|l k IH]; intros tr o X; cbn [sstop] in H.
  - apply sexec_ret_inv in X as [-> [-> | ->]]; apply Nil; intros x [= <-]. apply H.
  - apply sexec_panic_inv in X as [-> [-> | ->]]; apply Nil; discriminate.
  - inversion X; subst; apply Nil; discriminate.
  - apply sexec_transaction_inv in X as [[-> ->]|(got & r & tr' & -> & G & X)]; [apply Nil; discriminate|].
    eapply Step; [reflexivity| |exact X]. destruct H as [K1 K2], r as [[]|e]; cbn [spi_result]; [apply IH; auto|]. destruct (K2 got e G) as (a & -> & Ea & _). eauto.
  - apply sexec_write_inv in X as [[-> ->]|(r & tr' & -> & X)]; [apply Nil; discriminate|].
    eapply Step; [reflexivity| |exact X]. destruct H as [K1 K2], r as [[]|e]; cbn [spi_result]; [apply IH; auto|]. destruct (K2 e) as (a & -> & Ea & _). eauto.
  - apply sexec_transfer_inv in X as [[-> ->]|(got & r & tr' & -> & G & X)]; [apply Nil; discriminate|].
    eapply Step; [reflexivity| |exact X]. destruct H as [K1 K2], r as [[]|e]; cbn [spi_result]; [apply IH; auto|]. destruct (K2 got e G) as (a & -> & Ea & _). eauto.
Qed.
Section Plugged.
  Context (rd : N -> N -> list byte -> sprog (list byte * res unit berr)) (wr : N -> N -> list byte -> sprog (res unit berr)).
  Hypothesis Rd : forall b a d, sstop (fun r => length (fst r) = length d) (fun r => eb (snd r)) (rd b a d).
  Hypothesis Wr : forall b a d, sstop (fun _ => True) eb (wr b a d).
  Lemma sstop_plug {A} E (p : prog A) : estop E p -> sstop (fun _ => True) E (plug rd wr p).
  Proof.
    induction p as [a|w| |b a d k IH|b a d k IH]; cbn [estop plug sstop]; auto.
    - intros [K1 K2]. eapply sstop_bind; [apply Rd| |]; intros [got [[]|e]]; cbn [fst snd eb]; try discriminate.
      + intros _ L. apply IH, K1, L.
      + intros e' [= <-] L. destruct (K2 got e L) as (x & -> & Ex). exists x. auto.
    - intros [K1 K2]. eapply sstop_bind; [apply Wr| |]; intros [[]|e]; cbn [eb]; try discriminate.
      + intros _ _. apply IH, K1.
      + intros e' [= <-] _. destruct (K2 e) as (x & -> & Ex). exists x. auto.
  Qed.
End Plugged.
Lemma fw_read_stops b a d : sstop (fun r => length (fst r) = length d) (fun r => eb (snd r)) (fw_read_frame b a d).
Proof.
  assert (L : forall got : list (list byte), map (@length byte) got = [2; 1; length d]%nat -> length (nth 2 got []) = length d).
  { intros [|g0 [|g1 [|g2 got]]] G; try discriminate G. injection G as _ _ G _. exact G. }
  unfold fw_read_frame. cbn [sstop map op_bytes]. split; [intros got G|intros got e G; eexists; split; [reflexivity|]]; cbn [fst snd eb]; (split; [reflexivity|apply L, G]).
Qed.
Lemma fw_write_stops b a d : sstop (fun _ => True) eb (fw_write_frame b a d).
Proof. unfold fw_write_frame. cbn [sstop snd eb]. split; [auto|]. intros got e _. eexists. repeat split. Qed.
Lemma tw_write_stops chk : forall fuel c a d, sstop (fun _ => True) eb (tw_write_loop chk fuel c a d).
Proof.
  induction fuel as [|fuel IH]; intros c a [|b d]; cbn [tw_write_loop sstop eb]; auto.
  split; [|intros e; eexists; repeat split]. split; [|intros e; eexists; repeat split]. split; [|intros e; eexists; repeat split].
  destruct (add_u16 _ _ _); cbn [sstop]; auto.
Qed.
Lemma take_drop_length (n : N) (d got : list byte) : length got = length (take n d) -> length (got ++ drop n d) = length d.
Proof. intros H. rewrite app_length, H, <- app_length. unfold take, drop. now rewrite firstn_skipn. Qed.
Lemma tw_read_stops chk : forall fuel c a d, sstop (fun r => length (fst r) = length d) (fun r => eb (snd r)) (tw_read_loop chk fuel c a d).
Proof.
  induction fuel as [|fuel IH]; intros c a [|b d]; cbn [tw_read_loop sstop]; auto.
  set (l := b :: d). set (n := snd (tw_chunk (len l))).
  split; [|intros e; eexists; repeat split]. split; [|intros e; eexists; repeat split]. split; [|intros got e G; eexists; split; [reflexivity|]; split; [reflexivity|]; now apply take_drop_length].
  intros got G. cbn [snd fst]. destruct (add_u16 _ _ _) as [a'|]; [|exact Logic.I].
  eapply sstop_bind; [apply IH| |]; cbn beta.
  - intros [g r] Er L. cbn [sstop fst snd] in *. split; [exact Er|]. rewrite app_length, L, <- app_length. now apply take_drop_length.
  - intros [g r] e Er L. cbn [fst snd] in *. eexists. split; [reflexivity|]. cbn [fst snd]. split; [exact Er|]. rewrite app_length, L, <- app_length. now apply take_drop_length.
Qed.
Lemma three_wire_stops {A} chk E (p : prog A) : estop E p -> sstop (fun _ => True) E (over_three_wire chk p).
Proof. apply sstop_plug; intros; [apply tw_read_stops|apply tw_write_stops]. Qed.
Lemma four_wire_stops {A} E (p : prog A) : estop E p -> sstop (fun _ => True) E (over_four_wire p).
Proof. apply sstop_plug; intros; [apply fw_read_stops|apply fw_write_stops]. Qed.

(** ** The operations of a ThreeWire frame *)
(** A transfer or a write, and its bytes before. *)
Definition shape (e : spi_event) : bool * list byte :=
  match e with WWrite l _ => (false, l) | WTransfer l _ _ => (true, l) | WTransaction _ _ _ => (false, []) end.
Fixpoint pieces (fuel : nat) (d : list byte) : list (list byte) :=
  match d, fuel with
  | [], _ | _, O => []
  | _, S fuel' => let n := snd (tw_chunk (len d)) in take n d :: pieces fuel' (drop n d)
  end.
Fixpoint ops_of (wr : bool) (blk m a : N) (ps : list (list byte)) : list (bool * list byte) :=
  match ps with
  | [] => []
  | p :: ps' =>
      let m' := N.lor m (fst (tw_chunk (len p))) in
      (false, to_be a) :: (false, [u8 (tw_ctl blk m')]) :: (negb wr, p) :: ops_of wr blk m' ((a + len p) mod 65536) ps'
  end.
Fixpoint gotten (tr : list spi_event) : list byte :=
  match tr with
  | [] => []
  | WTransfer _ got _ :: tr' => got ++ gotten tr'
  | _ :: tr' => gotten tr'
  end.
Definition fine (e : spi_event) : Prop := spi_result e = Ok tt.
Definition follows (ops : list (bool * list byte)) (tr : list spi_event) : Prop := exists rest, ops = map shape tr ++ rest.
Lemma follows_cons op ops e tr : shape e = op -> follows ops tr -> follows (op :: ops) (e :: tr).
Proof. intros <- [rest ->]. exists rest. reflexivity. Qed.
Lemma follows_nil ops : follows ops [].
Proof. now exists ops. Qed.
Lemma fine_cons e tr : fine e -> Forall fine (removelast tr) -> Forall fine (removelast (e :: tr)).
Proof. intros H F. destruct tr as [|e1 tr]; [constructor|]. change (removelast (e :: e1 :: tr)) with (e :: removelast (e1 :: tr)). now constructor. Qed.

Definition piece_ok (d : list byte) : Prop := d <> [] ->
  let n := snd (tw_chunk (len d)) in len (take n d) = n /\ (length (drop n d) < length d)%nat /\ tw_chunk (len (take n d)) = tw_chunk (len d) /\ 0 < n <= 4.
Lemma piece_facts d : piece_ok d.
Proof.
  intros D. assert (L : 1 <= len d) by (destruct d; [easy|unfold len; cbn [length]; lia]).
  set (n := snd (tw_chunk (len d))).
  assert (Hn : 0 < n <= len d /\ n <= 4 /\ tw_chunk n = tw_chunk (len d)).
  { unfold n, tw_chunk. destruct (N.leb_spec 4 (len d)); cbn [snd]; [repeat split; lia|]. destruct (N.leb_spec 2 (len d)); cbn [snd]; repeat split; lia. }
  destruct Hn as (H1 & H2 & H3).
  assert (T : len (take n d) = n) by (unfold take, len in *; rewrite firstn_length; lia).
  split; [exact T|]. split; [unfold drop; rewrite skipn_length; unfold len in *; lia|]. rewrite T. split; [exact H3|lia].
Qed.

(** what holds of an execution of a frame: the operations, that only the last may fail, and the end *)
Definition ends (checked : bool) (a : N) (wr : bool) (blk m : N) (ps : list (list byte)) (tr : list spi_event) (r : option (res unit berr)) (panic : option site) : Prop :=
  follows (ops_of wr blk m a ps) tr /\ Forall fine (removelast tr) /\
  (r = Some (Ok tt) -> map shape tr = ops_of wr blk m a ps /\ Forall fine tr) /\
  (forall e, r = Some (Err e) -> exists t1 ev, tr = t1 ++ [ev] /\ spi_result ev = Err e) /\
  (forall w, panic = Some w -> w = P_add_overflow /\ checked = true /\ Forall fine tr /\
     exists ps1 ps2, ps = ps1 ++ ps2 /\ map shape tr = ops_of wr blk m a ps1 /\ 65536 <= a + len (concat ps1)).
Definition res_of {A} (f : A -> res unit berr) (o : outcome A) := match o with Done x => Some (f x) | _ => None end.
Definition panic_of {A} (o : outcome A) := match o with Panicked w => Some w | _ => None end.

Lemma add_u16_some chk a n a' : add_u16 chk a n = Some a' -> a' = (a + n) mod 65536 /\ (chk = true -> a' = a + n) .
Proof. unfold add_u16. destruct (N.ltb_spec (a + n) 65536); [intros [= <-]; rewrite N.mod_small; auto|]. destruct chk; [discriminate|]. intros [= <-]. split; [reflexivity|discriminate]. Qed.
Lemma add_u16_none chk a n : add_u16 chk a n = None -> chk = true /\ 65536 <= a + n.
Proof. unfold add_u16. destruct (N.ltb_spec (a + n) 65536); [discriminate|]. destruct chk; [auto|discriminate]. Qed.

Lemma ends_nil chk a wr blk m ps r p : r <> Some (Ok tt) \/ ps = [] -> (forall e, r <> Some (Err e)) -> p = None -> ends chk a wr blk m ps [] r p.
Proof.
  intros H1 H2 ->. split; [apply follows_nil|]. split; [constructor|]. split; [|split; [intros e He; now apply H2 in He|discriminate]].
  intros E. destruct H1 as [H1|H1]; [contradiction|]. subst ps. split; [reflexivity|constructor].
Qed.
(** the operation of an event fails, or nothing follows *)
Lemma ends_err chk a wr blk m ps tr ev e r : follows (ops_of wr blk m a ps) (tr ++ [ev]) -> Forall fine tr -> spi_result ev = Err e -> r = None \/ r = Some (Err e) ->
  ends chk a wr blk m ps (tr ++ [ev]) r None.
Proof.
  intros F Fn E Hr. split; [exact F|]. split; [rewrite removelast_last; exact Fn|]. split; [destruct Hr as [-> | ->]; discriminate|]. split; [|discriminate].
  intros e' He'. exists tr, ev. split; [reflexivity|]. destruct Hr as [-> | ->]; [discriminate|]. congruence.
Qed.
Lemma ends_cut chk a wr blk m ps tr : follows (ops_of wr blk m a ps) tr -> Forall fine tr -> ends chk a wr blk m ps tr None None.
Proof.
  intros F Fn. split; [exact F|]. split.
  - destruct tr as [|ev tr] using rev_ind; [constructor|]. rewrite removelast_last. now apply Forall_app in Fn.
  - split; [discriminate|]. split; discriminate.
Qed.
Lemma ends_next chk a wr blk m p ps e1 e2 e3 tr r w a' : shape e1 = (false, to_be a) ->
  shape e2 = (false, [u8 (tw_ctl blk (N.lor m (fst (tw_chunk (len p)))))]) -> shape e3 = (negb wr, p) -> fine e1 -> fine e2 -> fine e3 ->
  add_u16 chk a (len p) = Some a' -> ends chk a' wr blk (N.lor m (fst (tw_chunk (len p)))) ps tr r w -> ends chk a wr blk m (p :: ps) (e1 :: e2 :: e3 :: tr) r w.
Proof.
  intros S1 S2 S3 F1 F2 F3 A (H1 & H2 & H3 & H4 & H5). apply add_u16_some in A as [A1 A2]. split; [|split; [|split; [|split]]].
  - cbn [ops_of]. rewrite <- A1. repeat apply follows_cons; auto.
  - repeat apply fine_cons; auto.
  - intros E. destruct (H3 E) as [M Fn]. cbn [map ops_of]. rewrite <- A1, S1, S2, S3, M. auto.
  - intros e E. destruct (H4 e E) as (t1 & ev & -> & X). exists (e1 :: e2 :: e3 :: t1), ev. auto.
  - intros w' E. destruct (H5 w' E) as (W & C & Fn & ps1 & ps2 & -> & M & O). split; [exact W|]. split; [exact C|]. split; [auto|].
    exists (p :: ps1), ps2. split; [reflexivity|]. split; [cbn [map ops_of]; now rewrite <- A1, S1, S2, S3, M|].
    rewrite (A2 C) in O. cbn [concat]. unfold len in *. rewrite app_length. lia.
Qed.
Lemma lor_ctl blk m k : blk < 32 -> m < 4 -> k < 4 -> N.lor (tw_ctl blk m) k = tw_ctl blk (N.lor m k) /\ N.lor m k < 4.
Proof. intros Hb Hm Hk. destruct (tw_ctl_decode blk m Hb Hm) as (_ & _ & _ & C & _). now apply C. Qed.
Lemma chunk_mode n : fst (tw_chunk n) < 4.
Proof. unfold tw_chunk. destruct (4 <=? n); [reflexivity|]. destruct (2 <=? n); reflexivity. Qed.
Ltac fol := cbn [ops_of app]; repeat (apply follows_cons; [reflexivity|]); apply follows_nil.

Lemma tw_write_trace chk blk : blk < 32 -> forall fuel m a d tr o, (length d <= fuel)%nat -> m < 4 ->
  sexec (tw_write_loop chk fuel (tw_ctl blk m) a d) tr o -> ends chk a true blk m (pieces fuel d) tr (res_of id o) (panic_of o) /\ o <> Looping.
Proof.
  intros Hb. induction fuel as [|fuel IH]; intros m a d tr o Hf Hm X; destruct d as [|b d].
  1,3: apply sexec_ret_inv in X as [-> [-> | ->]]; (split; [|discriminate]); apply ends_nil; cbn [res_of panic_of id pieces]; try discriminate; auto; now left.
  { cbn [length] in Hf. lia. }
  cbn [tw_write_loop pieces] in *. set (l := b :: d) in *. destruct (piece_facts l ltac:(discriminate)) as (P1 & P2 & P3 & P4). set (n := snd (tw_chunk (len l))) in *.
  destruct (lor_ctl blk m (fst (tw_chunk (len l))) Hb Hm (chunk_mode _)) as [C1 C2].
  apply sexec_write_inv in X as [[-> ->]|([[]|e] & t1 & -> & X)]; [split; [|discriminate]; apply ends_cut; [apply follows_nil|constructor]| |].
  2: { apply sexec_ret_inv in X as [-> Ho]. split; [|destruct Ho as [-> | ->]; discriminate].
       replace (panic_of o) with (@None site) by (destruct Ho as [-> | ->]; reflexivity).
       apply (ends_err chk a true blk m _ [] _ e); [fol|constructor|reflexivity|]. destruct Ho as [-> | ->]; auto. }
  apply sexec_write_inv in X as [[-> ->]|([[]|e] & t2 & -> & X)]; [split; [|discriminate]; apply ends_cut; [fol|repeat constructor]| |].
  2: { apply sexec_ret_inv in X as [-> Ho]. split; [|destruct Ho as [-> | ->]; discriminate].
       replace (panic_of o) with (@None site) by (destruct Ho as [-> | ->]; reflexivity).
       apply (ends_err chk a true blk m _ [_] _ e); [cbn [ops_of app]; rewrite P3, <- C1; fol|repeat constructor|reflexivity|]. destruct Ho as [-> | ->]; auto. }
  apply sexec_write_inv in X as [[-> ->]|([[]|e] & t3 & -> & X)]; [split; [|discriminate]; apply ends_cut; [cbn [ops_of app]; rewrite P3, <- C1; fol|repeat constructor]| |].
  2: { apply sexec_ret_inv in X as [-> Ho]. split; [|destruct Ho as [-> | ->]; discriminate].
       replace (panic_of o) with (@None site) by (destruct Ho as [-> | ->]; reflexivity).
       apply (ends_err chk a true blk m _ [_; _] _ e); [cbn [ops_of app]; rewrite P3, <- C1; fol|repeat constructor|reflexivity|]. destruct Ho as [-> | ->]; auto. }
  destruct (add_u16 chk a n) as [a'|] eqn:A.
  - rewrite C1 in X. assert (Hf' : (length (drop n l) <= fuel)%nat) by lia. destruct (IH _ _ _ _ _ Hf' C2 X) as [H L]. split; [|exact L].
    eapply ends_next; [reflexivity|cbn [shape]; now rewrite P3, C1|reflexivity|reflexivity|reflexivity|reflexivity|rewrite P1; exact A|rewrite P3; exact H].
  - apply sexec_panic_inv in X as [-> [-> | ->]]; (split; [|discriminate]).
    + apply ends_cut; [cbn [ops_of app]; rewrite P3, <- C1; fol|repeat constructor].
    + apply add_u16_none in A as [-> A]. split; [cbn [ops_of app]; rewrite P3, <- C1; fol|]. split; [repeat constructor|]. split; [discriminate|]. split; [discriminate|].
      intros w [= <-]. split; [reflexivity|]. split; [reflexivity|]. split; [repeat constructor|].
      exists [take n l], (pieces fuel (drop n l)). split; [reflexivity|]. split; [cbn [map shape ops_of]; now rewrite P3, <- C1|].
      cbn [concat]. rewrite app_nil_r, P1. exact A.
Qed.

Lemma skip_skip {A} (x y : nat) (l : list A) : skipn x (skipn y l) = skipn (y + x) l.
Proof. revert l. induction y as [|y IH]; intros [|b l]; cbn [skipn Nat.add]; rewrite ?skipn_nil; auto. Qed.
Lemma tw_read_trace chk blk : blk < 32 -> forall fuel m a d tr o, (length d <= fuel)%nat -> m < 4 ->
  sexec (tw_read_loop chk fuel (tw_ctl blk m) a d) tr o -> ends chk a false blk m (pieces fuel d) tr (res_of snd o) (panic_of o) /\ o <> Looping /\
    forall buf r, o = Done (buf, r) -> buf = gotten tr ++ skipn (length (gotten tr)) d.
Proof.
  intros Hb. induction fuel as [|fuel IH]; intros m a d tr o Hf Hm X; destruct d as [|b d].
  1,3: apply sexec_ret_inv in X as [-> [-> | ->]]; (split; [|split; [discriminate|]]); [| |apply ends_nil|]; try (intros ? ? [= <- <-]; reflexivity); try discriminate; auto;
    apply ends_nil; cbn [res_of panic_of snd pieces]; try discriminate; auto; now left.
  { cbn [length] in Hf. lia. }
  cbn [tw_read_loop pieces] in *. set (l := b :: d) in *. destruct (piece_facts l ltac:(discriminate)) as (P1 & P2 & P3 & P4). set (n := snd (tw_chunk (len l))) in *.
  destruct (lor_ctl blk m (fst (tw_chunk (len l))) Hb Hm (chunk_mode _)) as [C1 C2].
  apply sexec_write_inv in X as [[-> ->]|([[]|e] & t1 & -> & X)]; [split; [|split; discriminate]; apply ends_cut; [apply follows_nil|constructor]| |].
  2: { apply sexec_ret_inv in X as [-> Ho]. split; [|destruct Ho as [-> | ->]; (split; [discriminate|]); intros ? ? [= <- <-]; reflexivity].
       replace (panic_of o) with (@None site) by (destruct Ho as [-> | ->]; reflexivity).
       apply (ends_err chk a false blk m _ [] _ e); [fol|constructor|reflexivity|]. destruct Ho as [-> | ->]; auto. }
  apply sexec_write_inv in X as [[-> ->]|([[]|e] & t2 & -> & X)]; [split; [|split; discriminate]; apply ends_cut; [fol|repeat constructor]| |].
  2: { apply sexec_ret_inv in X as [-> Ho]. split; [|destruct Ho as [-> | ->]; (split; [discriminate|]); intros ? ? [= <- <-]; reflexivity].
       replace (panic_of o) with (@None site) by (destruct Ho as [-> | ->]; reflexivity).
       apply (ends_err chk a false blk m _ [_] _ e); [cbn [ops_of app]; rewrite P3, <- C1; fol|repeat constructor|reflexivity|]. destruct Ho as [-> | ->]; auto. }
  apply sexec_transfer_inv in X as [[-> ->]|(got & [[]|e] & t3 & -> & G & X)]; cbn [fst snd] in *; [split; [|split; discriminate]; apply ends_cut; [cbn [ops_of app]; rewrite P3, <- C1; fol|repeat constructor]| |].
  2: { apply sexec_ret_inv in X as [-> Ho]. split; [|destruct Ho as [-> | ->]; (split; [discriminate|]); intros ? ? [= <- <-]].
       2: { cbn [gotten]. rewrite app_nil_r, G. unfold take, drop, len in P1 |- *. f_equal. f_equal. lia. }
       replace (panic_of o) with (@None site) by (destruct Ho as [-> | ->]; reflexivity).
       apply (ends_err chk a false blk m _ [_; _] _ e); [cbn [ops_of app]; rewrite P3, <- C1; fol|repeat constructor|reflexivity|]. destruct Ho as [-> | ->]; auto. }
  assert (Hf' : (length (drop n l) <= fuel)%nat) by lia.
  destruct (add_u16 chk a n) as [a'|] eqn:A.
  - rewrite C1 in X.
    assert (Fin : forall (t : list spi_event) (o1 : outcome (list byte * res unit berr)) (o2 : outcome (list byte * res unit berr)), sexec (tw_read_loop chk fuel (tw_ctl blk (N.lor m (fst (tw_chunk (len l))))) a' (drop n l)) t o1 ->
      res_of snd o2 = res_of snd o1 \/ o2 = Cut -> panic_of o2 = panic_of o1 ->
      ends chk a false blk m (take n l :: pieces fuel (drop n l))
        (WWrite (to_be a) (Ok tt) :: WWrite [u8 (N.lor (tw_ctl blk m) (fst (tw_chunk (len l))))] (Ok tt) :: WTransfer (take n l) got (Ok tt) :: t) (res_of snd o2) (panic_of o2)).
    { intros t o1 o2 X1 Hr Hp. destruct (IH _ _ _ _ _ Hf' C2 X1) as (H & _ & _).
      eapply ends_next; [reflexivity|cbn [shape]; now rewrite P3, C1|reflexivity|reflexivity|reflexivity|reflexivity|rewrite P1; exact A|rewrite P3].
      rewrite Hp. destruct Hr as [-> | ->]; [exact H|]. destruct H as (H1 & H2 & H3 & H4 & H5). split; [exact H1|]. split; [exact H2|]. split; [discriminate|]. split; [discriminate|exact H5]. }
    apply sexec_bind_inv in X as [(u1 & [buf r] & u2 & -> & X1 & X2)|(o' & X1 & D & M)].
    + apply sexec_ret_inv in X2 as [-> Ho]. rewrite app_nil_r. split; [eapply Fin; [exact X1| |]; destruct Ho as [-> | ->]; auto|].
      split; [destruct Ho as [-> | ->]; discriminate|]. intros buf' r' ->. destruct Ho as [[=]|[= -> ->]]. cbn [fst snd].
      destruct (IH _ _ _ _ _ Hf' C2 X1) as (_ & _ & B). rewrite (B buf r eq_refl) at 1. cbn [gotten]. rewrite <- app_assoc. f_equal. f_equal.
      rewrite app_length, G. unfold drop. rewrite skip_skip. f_equal. unfold take, len in P1 |- *. lia.
    + destruct o' as [x|w| |]; [contradiction| | |]; subst o.
      * split; [eapply Fin; [exact X1|now left|reflexivity]|split; discriminate].
      * destruct (IH _ _ _ _ _ Hf' C2 X1) as (_ & L & _). now destruct L.
      * split; [eapply Fin; [exact X1|now left|reflexivity]|split; discriminate].
  - apply sexec_panic_inv in X as [-> [-> | ->]]; (split; [|split; discriminate]).
    + apply ends_cut; [cbn [ops_of app]; rewrite P3, <- C1; fol|repeat constructor].
    + apply add_u16_none in A as [-> A]. split; [cbn [ops_of app]; rewrite P3, <- C1; fol|]. split; [repeat constructor|]. split; [discriminate|]. split; [discriminate|].
      intros w [= <-]. split; [reflexivity|]. split; [reflexivity|]. split; [repeat constructor|].
      exists [take n l], (pieces fuel (drop n l)). split; [reflexivity|]. split; [cbn [map shape ops_of]; now rewrite P3, <- C1|].
      cbn [concat]. rewrite app_nil_r, P1. exact A.
Qed.

(** ** The same, without the driver's loop *)
Lemma pieces_concat : forall fuel d, (length d <= fuel)%nat -> concat (pieces fuel d) = d.
Proof.
  induction fuel as [|fuel IH]; intros [|b d] H; try reflexivity; [cbn [length] in H; lia|].
  cbn [pieces]. set (l := b :: d) in *. destruct (piece_facts l ltac:(discriminate)) as (_ & P2 & _). cbn [concat]. rewrite IH by lia. unfold take, drop. apply firstn_skipn.
Qed.
Lemma pieces_lengths : forall fuel d, (length d <= fuel)%nat -> exists q t, map (@length byte) (pieces fuel d) = repeat 4%nat q ++ t /\
  (t = [] \/ t = [1]%nat \/ t = [2]%nat \/ t = [2; 1]%nat).
Proof.
  induction fuel as [|fuel IH]; intros [|b d] H; [exists 0%nat, []; auto|cbn [length] in H; lia|exists 0%nat, []; auto|].
  cbn [pieces]. set (l := b :: d) in *. destruct (piece_facts l ltac:(discriminate)) as (P1 & P2 & _). cbn [map].
  assert (K : (length (drop (snd (tw_chunk (len l))) l) <= fuel)%nat) by lia.
  pose proof (f_equal N.to_nat P1) as T. unfold len at 1 in T. rewrite Nat2N.id in T.
  rewrite T. clear P1 T. revert K P2. unfold tw_chunk. destruct (N.leb_spec 4 (len l)); cbn [snd].
  - intros K P2. destruct (IH _ K) as (q & t & E & Ht). exists (S q), t. rewrite E. auto.
  - destruct (N.leb_spec 2 (len l)); cbn [snd]; intros K P2; exists 0%nat.
    + assert (L : (length (drop 2 l) <= 1)%nat) by (unfold drop, len in *; rewrite skipn_length; lia).
      destruct (drop 2 l) as [|x [|y r]]; cbn [length] in L; [|destruct fuel; [cbn [length] in K; lia|]|lia].
      * exists [2%nat]. destruct fuel; auto.
      * exists [2; 1]%nat. split; [destruct fuel; reflexivity|auto].
    + assert (L : drop 1 l = []) by (apply length_zero_iff_nil; unfold drop, len in *; rewrite skipn_length; lia).
      rewrite L. exists [1%nat]. destruct fuel; auto.
Qed.
(** the operations for the pieces of a frame: address, control byte, data.  [first] is whether no
    piece came before *)
Fixpoint frame_ops (wr first : bool) (blk a : N) (ps : list (list byte)) : list (bool * list byte) :=
  match ps with
  | [] => []
  | p :: ps' =>
      let mode := match first, wr, length p with
                  | true, true, 2%nat => 2 | true, false, 2%nat => 2 | true, false, 1%nat => 1
                  | _, _, _ => 3 end in
      (false, [u8 (a / 256); u8 a]) :: (false, [u8 (8 * blk + mode)]) :: (negb wr, p) :: frame_ops wr false blk ((a + len p) mod 65536) ps'
  end.
Lemma lor_3 m : m < 4 -> N.lor 3 m = 3.
Proof. intros H. assert (m = 0 \/ m = 1 \/ m = 2 \/ m = 3) as [-> |[-> |[-> | ->]]] by lia; reflexivity. Qed.
Lemma ops_later wr blk : forall ps a, ops_of wr blk 3 a ps = frame_ops wr false blk a ps.
Proof.
  induction ps as [|p ps IH]; intros a; [reflexivity|]. cbn [ops_of frame_ops]. cbv zeta. rewrite lor_3 by apply chunk_mode. unfold to_be, tw_ctl. rewrite IH, (N.mul_comm blk 8). reflexivity.
Qed.
Lemma ops_first wr blk a fuel d : (length d <= fuel)%nat -> ops_of wr blk (if wr then 2 else 0) a (pieces fuel d) = frame_ops wr true blk a (pieces fuel d).
Proof.
  intros H. destruct (pieces_lengths fuel d H) as (q & t & E & Ht). destruct (pieces fuel d) as [|p ps]; [reflexivity|].
  cbn [ops_of frame_ops map] in *. cbv zeta. unfold to_be, tw_ctl, len at 1. rewrite (N.mul_comm blk 8).
  destruct q as [|q]; [destruct Ht as [-> |[-> |[-> | ->]]]; cbn [repeat app] in E; try discriminate E|]; injection E as E1 E2; rewrite E1; unfold len at 1; rewrite ?E1.
  - destruct ps; [|discriminate E2]. now destruct wr.
  - destruct ps; [|discriminate E2]. now destruct wr.
  - destruct ps as [|p1 [|p2 ps]]; try discriminate E2. injection E2 as E2. cbn [ops_of frame_ops]. unfold tw_ctl, to_be. unfold len. rewrite ?E1, ?E2, (N.mul_comm blk 8). now destruct wr.
  - destruct wr; cbv iota; [change (N.lor 2 (fst (tw_chunk (N.of_nat 4)))) with 3|change (N.lor 0 (fst (tw_chunk (N.of_nat 4)))) with 3]; now rewrite ops_later.
Qed.
Lemma frame_ops_app wr blk a d ps1 ps2 : pieces (length d) d = ps1 ++ ps2 -> ops_of wr blk (if wr then 2 else 0) a ps1 = frame_ops wr true blk a ps1.
Proof.
  intros E.
  assert (F : forall ps1 ps2 m a, exists l, ops_of wr blk m a (ps1 ++ ps2) = ops_of wr blk m a ps1 ++ l).
  { clear. induction ps1 as [|p ps1 IH]; intros ps2 m a; [now exists (ops_of wr blk m a ps2)|]. cbn [ops_of app]. destruct (IH ps2 (N.lor m (fst (tw_chunk (len p)))) ((a + len p) mod 65536)) as [l ->]. now exists l. }
  assert (G : forall ps1 ps2 f a, exists l, frame_ops wr f blk a (ps1 ++ ps2) = frame_ops wr f blk a ps1 ++ l).
  { clear. induction ps1 as [|p ps1 IH]; intros ps2 f a; [now exists (frame_ops wr f blk a ps2)|]. cbn [frame_ops app]. destruct (IH ps2 false ((a + len p) mod 65536)) as [l ->]. now exists l. }
  assert (L1 : forall ps m a, length (ops_of wr blk m a ps) = (3 * length ps)%nat).
  { clear. induction ps as [|p ps IH]; intros m a; [reflexivity|]. cbn [ops_of length]. rewrite IH. lia. }
  assert (L2 : forall ps f a, length (frame_ops wr f blk a ps) = (3 * length ps)%nat).
  { clear. induction ps as [|p ps IH]; intros m a; [reflexivity|]. cbn [frame_ops length]. rewrite IH. lia. }
  pose proof (ops_first wr blk a (length d) d (le_n _)) as O. rewrite E in O.
  destruct (F ps1 ps2 (if wr then 2 else 0) a) as [l1 E1], (G ps1 ps2 true a) as [l2 E2]. rewrite E1, E2 in O.
  apply (f_equal (firstn (3 * length ps1))) in O.
  rewrite <- (L1 ps1 (if wr then 2 else 0) a) in O at 1. rewrite <- (L2 ps1 true a) in O. rewrite !firstn_app, !Nat.sub_diag, !firstn_all, !app_nil_r in O. exact O.
Qed.
Lemma ends_spelt {A} chk a wr blk d tr (o : outcome A) f : ends chk a wr blk (if wr then 2 else 0) (pieces (length d) d) tr (res_of f o) (panic_of o) -> o <> Looping ->
  let ops := frame_ops wr true blk a (pieces (length d) d) in
  map shape tr = firstn (length tr) ops /\ (length tr <= length ops)%nat /\ Forall (fun e => spi_result e = Ok tt) (removelast tr) /\
  match o with
  | Done x => match f x with
              | Ok _ => map shape tr = ops /\ Forall (fun e => spi_result e = Ok tt) tr
              | Err err => exists t1 e, tr = t1 ++ [e] /\ spi_result e = Err err end
  | Panicked w => w = P_add_overflow /\ chk = true /\ Forall (fun e => spi_result e = Ok tt) tr /\
      exists ps1 ps2, pieces (length d) d = ps1 ++ ps2 /\ map shape tr = frame_ops wr true blk a ps1 /\ 65536 <= a + len (concat ps1)
  | Looping => False
  | Cut => True
  end.
Proof.
  intros ([rest H1] & H2 & H3 & H4 & H5) L. cbv zeta. rewrite (ops_first wr blk a (length d) d (le_n _)) in H1, H3. rewrite H1.
  split; [|split; [|split; [exact H2|]]].
  - rewrite firstn_app, map_length, Nat.sub_diag. rewrite <- (map_length shape tr) at 1. rewrite firstn_all. now rewrite app_nil_r.
  - rewrite app_length, map_length. lia.
  - destruct o as [x|w| |]; cbn [res_of panic_of] in *; [| |now destruct L|exact Logic.I].
    + destruct (f x) as [[]|err]; [rewrite <- H1; now apply H3|]. now apply H4.
    + destruct (H5 w eq_refl) as (W & C & F & ps1 & ps2 & E & M & O). split; [exact W|]. split; [exact C|]. split; [exact F|].
      exists ps1, ps2. split; [exact E|]. split; [|exact O]. now rewrite M, (frame_ops_app wr blk a d ps1 ps2 E).
Qed.
Lemma gotten_concat tr : gotten tr = concat (map (fun e => match e with WTransfer _ g _ => g | _ => [] end) tr).
Proof. induction tr as [|[] tr IH]; cbn [gotten map concat]; rewrite ?IH; reflexivity. Qed.
