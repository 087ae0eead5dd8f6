(** Executions over a bus implementation are executions over an arbitrary bus; used for C115. *)
From Verif Require Import ThreeWireFacts ProgFacts ErrorFacts AccessFacts Datasheet Wire.

Lemma sstop_post {A} P E (p : sprog A) : sstop P E p -> forall tr x, sexec p tr (Done x) -> P x.
Proof.
  induction p as [a|w| |ops k IH|l k IH|l k IH]; cbn [sstop]; intros H tr x X.
  - apply sexec_ret_inv in X as [_ [[=]|[= ->]]]. apply H.
  - apply sexec_panic_inv in X as [_ [[=]|[=]]].
  - inversion X.
  - apply sexec_transaction_inv in X as [[_ [=]]|(got & [[]|e] & tr' & -> & G & X)]; destruct H as [K1 K2]; [eapply IH; eauto|].
    destruct (K2 got e G) as (a & E1 & _ & Pa). rewrite E1 in X. apply sexec_ret_inv in X as [_ [[=]|[= ->]]]. exact Pa.
  - apply sexec_write_inv in X as [[_ [=]]|([[]|e] & tr' & -> & X)]; destruct H as [K1 K2]; [eapply IH; eauto|].
    destruct (K2 e) as (a & E1 & _ & Pa). rewrite E1 in X. apply sexec_ret_inv in X as [_ [[=]|[= ->]]]. exact Pa.
  - apply sexec_transfer_inv in X as [[_ [=]]|(got & [[]|e] & tr' & -> & G & X)]; destruct H as [K1 K2]; [eapply IH; eauto|].
    destruct (K2 got e G) as (a & E1 & _ & Pa). rewrite E1 in X. apply sexec_ret_inv in X as [_ [[=]|[= ->]]]. exact Pa.
Qed.

Section Refine.
  Context (rd : N -> N -> list byte -> sprog (list byte * res unit berr)) (wr : N -> N -> list byte -> sprog (res unit berr)).
  Hypothesis Rd : forall b a d, sstop (fun r => length (fst r) = length d) (fun r => eb (snd r)) (rd b a d).
  (** a bus event and the SPI operations of its frame *)
  Definition frame_of (ev : event) (f : list spi_event) : Prop :=
    match ev with
    | ERead b a got r => exists d, length d = length got /\ sexec (rd b a d) f (Done (got, r))
    | EWrite b a d r => sexec (wr b a d) f (Done r)
    end.
  (** a frame of [p] that begins after [evs] and does not end *)
  Definition unfinished {A} (p : prog A) (evs : list event) (f : list spi_event) (o : outcome A) : Prop :=
    exists b a d,
      (exists o', sexec (rd b a d) f o' /\ cast o' = o /\ (forall x, o' <> Done x) /\ forall got r, length got = length d -> exec p (evs ++ [ERead b a got r]) Cut) \/
      (exists o', sexec (wr b a d) f o' /\ cast o' = o /\ (forall x, o' <> Done x) /\ forall r, exec p (evs ++ [EWrite b a d r]) Cut).
  Lemma plug_inv {A} (p : prog A) : forall tr o, sexec (plug rd wr p) tr o ->
    exists evs frames rest, tr = concat frames ++ rest /\ Forall2 frame_of evs frames /\
      ((rest = [] /\ exec p evs o) \/ unfinished p evs rest o).
  Proof.
    induction p as [a|w| |b a d k IH|b a d k IH]; cbn [plug]; intros tr o X.
    - apply sexec_ret_inv in X as [-> [-> | ->]]; exists [], [], []; (split; [reflexivity|]); (split; [constructor|]); left; (split; [reflexivity|constructor]).
    - apply sexec_panic_inv in X as [-> [-> | ->]]; exists [], [], []; (split; [reflexivity|]); (split; [constructor|]); left; (split; [reflexivity|constructor]).
    - inversion X; subst; exists [], [], []; (split; [reflexivity|]); (split; [constructor|]); left; (split; [reflexivity|constructor]).
    - apply sexec_bind_inv in X as [(f & [got r] & t2 & -> & X1 & X2)|(o' & X1 & D & M)].
      + pose proof (sstop_post _ _ _ (Rd b a d) _ _ X1) as L. cbn [fst] in L.
        destruct (IH _ _ _ X2) as (evs & frames & rest & -> & F & H).
        exists (ERead b a got r :: evs), (f :: frames), rest. split; [cbn [concat]; now rewrite app_assoc|].
        split; [constructor; [exists d; split; [lia|exact X1]|exact F]|].
        destruct H as [[-> H]|(b' & a' & d' & [(o' & Y & Eo & ND & H)|(o' & Y & Eo & ND & H)])]; [left; split; [reflexivity|now constructor]| |]; right; exists b', a', d'.
        * left. exists o'. split; [exact Y|]. split; [exact Eo|]. split; [exact ND|]. intros g' r' L'. cbn [Datatypes.app]. constructor; [exact L|now apply H].
        * right. exists o'. split; [exact Y|]. split; [exact Eo|]. split; [exact ND|]. intros r'. cbn [Datatypes.app]. constructor; [exact L|now apply H].
      + exists [], [], tr. split; [reflexivity|]. split; [constructor|]. right. exists b, a, d. left. exists o'. split; [exact X1|].
        split; [destruct o'; try contradiction; subst o; reflexivity|]. split; [exact D|]. intros got r L. cbn [Datatypes.app]. constructor; [exact L|constructor].
    - apply sexec_bind_inv in X as [(f & r & t2 & -> & X1 & X2)|(o' & X1 & D & M)].
      + destruct (IH _ _ _ X2) as (evs & frames & rest & -> & F & H).
        exists (EWrite b a d r :: evs), (f :: frames), rest. split; [cbn [concat]; now rewrite app_assoc|].
        split; [constructor; [exact X1|exact F]|].
        destruct H as [[-> H]|(b' & a' & d' & [(o' & Y & Eo & ND & H)|(o' & Y & Eo & ND & H)])]; [left; split; [reflexivity|now constructor]| |]; right; exists b', a', d'.
        * left. exists o'. split; [exact Y|]. split; [exact Eo|]. split; [exact ND|]. intros g' r' L'. cbn [Datatypes.app]. constructor. now apply H.
        * right. exists o'. split; [exact Y|]. split; [exact Eo|]. split; [exact ND|]. intros r'. cbn [Datatypes.app]. constructor. now apply H.
      + exists [], [], tr. split; [reflexivity|]. split; [constructor|]. right. exists b, a, d. right. exists o'. split; [exact X1|].
        split; [destruct o'; try contradiction; subst o; reflexivity|]. split; [exact D|]. intros r. cbn [Datatypes.app]. constructor. constructor.
  Qed.
End Refine.

(** FourWire: a frame is one transaction *)
Definition transaction_of (ev : event) (t : spi_event) : Prop :=
  match ev, t with
  | ERead b a got r, WTransaction ops gs r' => r' = r /\ exists d, length d = length got /\
      ops = [OpWrite (to_be a); OpWrite [u8 (shl3 b)]; OpTransferInPlace d] /\ nth 2 gs [] = got
  | EWrite b a d r, WTransaction ops _ r' => r' = r /\ ops = [OpWrite (to_be a); OpWrite [u8 (N.lor (shl3 b) FW_WRITE_MODE_MASK)]; OpWrite d]
  | _, _ => False
  end.
Lemma four_wire_inv {A} (p : prog A) : forall tr o, sexec (over_four_wire p) tr o -> exists evs, exec p evs o /\ Forall2 transaction_of evs tr.
Proof.
  unfold over_four_wire. induction p as [a|w| |b a d k IH|b a d k IH]; cbn [plug]; intros tr o X.
  - apply sexec_ret_inv in X as [-> [-> | ->]]; exists []; split; constructor.
  - apply sexec_panic_inv in X as [-> [-> | ->]]; exists []; split; constructor.
  - inversion X; subst; exists []; split; constructor.
  - unfold fw_read_frame in X. cbn [sbind] in X. apply sexec_transaction_inv in X as [[-> ->]|(gs & r & tr' & -> & G & X)]; [exists []; split; constructor|].
    cbn [fst snd] in X. destruct (IH _ _ _ X) as (evs & X' & F). exists (ERead b a (nth 2 gs []) r :: evs).
    assert (L : length (nth 2 gs []) = length d).
    { cbn [map op_bytes] in G. destruct gs as [|g0 [|g1 [|g2 gs]]]; try discriminate G. injection G as _ _ G _. exact G. }
    split; [now constructor|]. constructor; [|exact F]. split; [reflexivity|]. exists d. auto.
  - unfold fw_write_frame in X. cbn [sbind] in X. apply sexec_transaction_inv in X as [[-> ->]|(gs & r & tr' & -> & G & X)]; [exists []; split; constructor|].
    cbn [fst snd] in X. destruct (IH _ _ _ X) as (evs & X' & F). exists (EWrite b a d r :: evs).
    split; [now constructor|]. constructor; [|exact F]. split; reflexivity.
Qed.

(** ThreeWire: a frame that begins ends, or the execution is still going on, or the address overflows *)
Lemma tw_write_ends chk : forall fuel c a d tr o, (length d <= fuel)%nat -> sexec (tw_write_loop chk fuel c a d) tr o ->
  o = Cut \/ (exists r, o = Done r) \/ (chk = true /\ o = Panicked P_add_overflow /\ 65536 <= a + len d).
Proof.
  induction fuel as [|fuel IH]; intros c a [|b d] tr o Hf X; cbn [tw_write_loop] in X;
    [apply sexec_ret_inv in X as [_ [-> | ->]]; eauto|cbn [length] in Hf; lia|apply sexec_ret_inv in X as [_ [-> | ->]]; eauto|].
  set (l := b :: d) in *. destruct (piece_facts l ltac:(discriminate)) as (P1 & P2 & _ & P4). set (n := snd (tw_chunk (len l))) in *.
  assert (S : len l = n + len (drop n l)). { rewrite <- P1 at 1. unfold len, take, drop. rewrite <- (firstn_skipn (N.to_nat n) l) at 1. rewrite app_length. lia. }
  do 3 (apply sexec_write_inv in X as [[-> ->]|([[]|?] & ? & -> & X)]; [now left| |apply sexec_ret_inv in X as [_ [-> | ->]]; eauto]).
  destruct (add_u16 chk a n) as [a'|] eqn:A.
  - assert (Hf' : (length (drop n l) <= fuel)%nat) by lia. destruct (IH _ _ _ _ _ Hf' X) as [-> |[[r ->]|(C & -> & O)]]; eauto.
    right. right. split; [exact C|]. split; [reflexivity|]. apply add_u16_some in A as [_ A]. rewrite (A C) in O. lia.
  - apply add_u16_none in A as [C A]. apply sexec_panic_inv in X as [_ [-> | ->]]; [now left|]. right. right. split; [exact C|]. split; [reflexivity|]. lia.
Qed.
Lemma tw_read_ends chk : forall fuel c a d tr o, (length d <= fuel)%nat -> sexec (tw_read_loop chk fuel c a d) tr o ->
  o = Cut \/ (exists r, o = Done r) \/ (chk = true /\ o = Panicked P_add_overflow /\ 65536 <= a + len d).
Proof.
  induction fuel as [|fuel IH]; intros c a [|b d] tr o Hf X; cbn [tw_read_loop] in X;
    [apply sexec_ret_inv in X as [_ [-> | ->]]; eauto|cbn [length] in Hf; lia|apply sexec_ret_inv in X as [_ [-> | ->]]; eauto|].
  set (l := b :: d) in *. destruct (piece_facts l ltac:(discriminate)) as (P1 & P2 & _ & P4). set (n := snd (tw_chunk (len l))) in *.
  assert (S : len l = n + len (drop n l)). { rewrite <- P1 at 1. unfold len, take, drop. rewrite <- (firstn_skipn (N.to_nat n) l) at 1. rewrite app_length. lia. }
  do 2 (apply sexec_write_inv in X as [[-> ->]|([[]|?] & ? & -> & X)]; [now left| |apply sexec_ret_inv in X as [_ [-> | ->]]; eauto]).
  apply sexec_transfer_inv in X as [[-> ->]|(got & [[]|?] & ? & -> & G & X)]; [now left| |apply sexec_ret_inv in X as [_ [-> | ->]]; eauto].
  cbn [fst snd] in X. destruct (add_u16 chk a n) as [a'|] eqn:A.
  - assert (Hf' : (length (drop n l) <= fuel)%nat) by lia.
    apply sexec_bind_inv in X as [(t1 & r & t2 & -> & X1 & X2)|(o' & X1 & D & M)]; [apply sexec_ret_inv in X2 as [_ [-> | ->]]; eauto|].
    destruct (IH _ _ _ _ _ Hf' X1) as [-> |[[r ->]|(C & -> & O)]]; subst; [now left|contradiction|].
    right. right. split; [reflexivity|]. split; [reflexivity|]. apply add_u16_some in A as [_ A]. rewrite (A eq_refl) in O. lia.
  - apply add_u16_none in A as [C A]. apply sexec_panic_inv in X as [_ [-> | ->]]; [now left|]. right. right. split; [exact C|]. split; [reflexivity|]. lia.
Qed.

Lemma ctl_read b : u8 (shl3 b) = u8 (8 * b).
Proof. unfold shl3, u8. rewrite N.mod_mod by discriminate. now rewrite N.mul_comm. Qed.
Lemma ctl_write4 b : u8 (N.lor (shl3 b) FW_WRITE_MODE_MASK) = u8 (8 * b + 4).
Proof.
  assert (E : N.lor (shl3 b) 4 = shl3 b + 4).
  { unfold shl3. replace ((b * 8) mod 256) with ((b mod 32) * 8) by (rewrite <- (N.mul_mod_distr_r b 32 8) by discriminate; reflexivity).
    rewrite N.lor_comm. symmetry. rewrite N.add_comm. rewrite <- N.lxor_lor; [apply N.add_nocarry_lxor|]; apply N.bits_inj_0; intros k; rewrite N.land_spec;
      (destruct (N.lt_ge_cases k 3) as [K|K]; [rewrite (N.mul_pow2_bits_low _ 3 k) by exact K; apply Bool.andb_false_r|];
       change 4 with (2 ^ 2); rewrite N.pow2_bits_false by lia; reflexivity). }
  unfold FW_WRITE_MODE_MASK. rewrite E. unfold shl3, u8. f_equal. rewrite N.add_mod_idemp_l by discriminate. now rewrite N.mul_comm.
Qed.
Lemma Forall2_weaken {A B} (P Q : A -> B -> Prop) l l' : (forall a b, P a b -> Q a b) -> Forall2 P l l' -> Forall2 Q l l'.
Proof. intros H F. induction F; constructor; auto. Qed.

(** registers end far below the end of the address space *)
Lemma register_small m a n : m = common_map \/ m = socket_map -> whole_register m a n -> a + N.of_nat n <= 64.
Proof.
  intros Hm (rw & Hin). assert (F : forallb (fun x => fst (fst x) + N.of_nat (snd (fst x)) <=? 64) m = true) by (destruct Hm as [-> | ->]; reflexivity).
  rewrite forallb_forall in F. specialize (F _ Hin). cbn [fst snd] in F. apply N.leb_le, F.
Qed.
Definition small_or_memory (b a n : N) : Prop := a + n <= 64 \/ (a < 65536 /\ exists i, i < 8 /\ (b = BSB_TX i \/ b = BSB_RX i)).
Lemma step_access fuel a o tr oc ev : pool_inv a -> exec (step fuel a o) tr oc -> In ev tr ->
  match ev with ERead b ad got _ => small_or_memory b ad (len got) | EWrite b ad d _ => small_or_memory b ad (len d) end.
Proof.
  intros I X Hin. pose proof (at_step tx_read_write fuel a o I (fun _ b a0 d H => H)) as T.
  destruct (atree_exec _ _ _ _ _ _ T X) as [F _]. rewrite Forall_forall in F. specialize (F ev Hin). destruct ev as [b ad got r|b ad d r]; cbn [in_rw] in F.
  - destruct F as [[_ W]|(i & Hi & [[_ W]|(-> & Ha & _)])]; [left; eapply register_small; [|exact W]; auto|left; eapply register_small; [|exact W]; auto|].
    right. split; [exact Ha|]. exists i. auto.
  - destruct F as [[[[_ W]|(i & Hi & [(_ & W & _)|(-> & Ha & _)])] _]|(i & Hi & -> & -> & L)].
    + left. eapply register_small; [|exists true; exact W]; auto.
    + left. eapply register_small; [|exists true; exact W]; auto.
    + right. split; [exact Ha|]. exists i. auto.
    + left. unfold len. rewrite L. unfold Sn_TX_RD. lia.
Qed.
Lemma frame_ops_last wr blk : forall ps first a, ps <> [] -> exists l ad m p, m < 4 /\
  frame_ops wr first blk a ps = l ++ [(false, ad); (false, [u8 (8 * blk + m)]); (negb wr, p)].
Proof.
  induction ps as [|p ps IH]; intros first a H; [easy|]. destruct ps as [|p1 ps].
  - exists []. cbn [frame_ops Datatypes.app]. cbv zeta. eexists _, _, p. split; [|reflexivity]. destruct first, wr, (length p) as [|[|[|n]]]; reflexivity.
  - destruct (IH false ((a + len p) mod 65536) ltac:(discriminate)) as (l & ad & m & q & Hm & E). cbn [frame_ops] in E |- *. cbv zeta in *.
    eexists (_ :: _ :: _ :: l), ad, m, q. split; [exact Hm|]. cbn [Datatypes.app]. rewrite <- E. reflexivity.
Qed.
Lemma exec_prefix_cut {A} (p : prog A) evs more o : exec p (evs ++ more) o -> exec p evs Cut.
Proof.
  intros X. remember (evs ++ more) as l eqn:E. revert evs E. induction X; intros [|e evs] E; try constructor; try discriminate E; cbn [Datatypes.app] in E; injection E as <- E; constructor; auto.
Qed.

(** a peripheral that never fails and answers the transfers from a list, for examples *)
Definition fit (l g : list byte) : list byte := firstn (length l) (g ++ l).
Lemma fit_length l g : length (fit l g) = length l.
Proof. unfold fit. rewrite firstn_length, app_length. lia. Qed.
Definition answer (g : list byte) (o : spi_op) : list byte := match o with OpWrite l => l | OpTransferInPlace l => fit l g end.
Fixpoint sreplay {A} (p : sprog A) (ans : list (list byte)) : list spi_event * outcome A :=
  match p with
  | SRet a => ([], Done a)
  | SPanic w => ([], Panicked w)
  | SSpin => ([], Looping)
  | STransaction ops k =>
      let reads := existsb (fun o => match o with OpTransferInPlace _ => true | _ => false end) ops in
      let got := map (answer (hd [] ans)) ops in
      let r := sreplay (k (got, Ok tt)) (if reads then tl ans else ans) in (WTransaction ops got (Ok tt) :: fst r, snd r)
  | SWrite l k => let r := sreplay (k (Ok tt)) ans in (WWrite l (Ok tt) :: fst r, snd r)
  | STransfer l k => let g := fit l (hd [] ans) in let r := sreplay (k (g, Ok tt)) (tl ans) in (WTransfer l g (Ok tt) :: fst r, snd r)
  end.
Lemma sreplay_sexec {A} (p : sprog A) : forall ans, sexec p (fst (sreplay p ans)) (snd (sreplay p ans)).
Proof.
  induction p as [a|w| |ops k IH|l k IH|l k IH]; intros ans; cbn [sreplay fst snd]; constructor; auto using fit_length.
  rewrite map_map. apply map_ext. intros [l|l]; cbn [answer op_bytes]; auto using fit_length.
Qed.
