(** The whole life of one chip in a program: [UninitializedDevice] (uninitialized_device.rs),
    the [Device] or [RawDevice] that its initialize functions turn it into, [Device::reset]
    (device.rs:104-111) back to an [UninitializedDevice], and a new [UninitializedDevice::new]
    (uninitialized_device.rs:34-36) on the bus that [Device::release] (device.rs:113-115) gave
    back or that the program still owns.  Socket handles are values of the program, so they
    outlive the device that issued them.  So do devices put away with [deactivate]
    (device.rs:278-280): the program may build another device on the bus, and activate the
    old one again, by value (device.rs:289-291) or by reference (device.rs:293-298; the
    reference ends with the device made from it, the state stays). *)
From Verif Require Export RawHistory.

(** The methods of an [UninitializedDevice] other than the initialize functions:
    uninitialized_device.rs:121-231. *)
Inductive uop :=
| UReset | USetMode (m : Mode) | UVersion
| USetRetryTimeout (r : RetryTime) | URetryTimeout | USetRetryCount (n : byte) | URetryCount.
Definition run_uop (q : uop) : prog devout :=
  match q with
  | UReset => do r <- uninit_reset ;; Ret (DUnit r)
  | USetMode m => do r <- dev_set_mode m ;; Ret (DUnit r)
  | UVersion => do r <- dev_version ;; Ret (DByte r)
  | USetRetryTimeout t => do r <- dev_set_retry_timeout t ;; Ret (DUnit r)
  | URetryTimeout => do r <- dev_current_retry_timeout ;; Ret (DRetryTime r)
  | USetRetryCount n => do r <- dev_set_retry_count n ;; Ret (DUnit r)
  | URetryCount => do r <- dev_current_retry_count ;; Ret (DByte r)
  end.

(** What the program holds: an [UninitializedDevice], a [Device], a [Device] on a reference to
    the state of the [k]-th inactive device, a [RawDevice], or none of them (an initialize
    function or [Device::reset] consumed it and failed, or it was deactivated).  [asleep]: the
    inactive devices. *)
Inductive phase := Fresh | Up (d : DeviceState) | UpRef (k : nat) | RawUp (r : RawDevice) | Gone.
Record life := mkLife { ph : phase; lhandles : list (nat * handle); lfresh : nat; asleep : list DeviceState }.
Definition life_new : life := mkLife Fresh [] 0 [].
Fixpoint set_nth {A} (k : nat) (x : A) (l : list A) : list A :=
  match l, k with
  | [], _ => []
  | _ :: l', O => x :: l'
  | y :: l', S k' => y :: set_nth k' x l'
  end.
Fixpoint drop_nth {A} (k : nat) (l : list A) : list A :=
  match l, k with
  | [], _ => []
  | _ :: l', O => l'
  | y :: l', S k' => y :: drop_nth k' l'
  end.

(** the three ways to get a [Device]: uninitialized_device.rs:54-89 *)
Inductive setup := IDhcp (mc : mac) | IManual (mc : mac) (ip : ipv4) | IAdvanced (mc : mac) (ip gateway subnet : ipv4).
Definition run_setup (assertion : bool) (k : setup) (m : Mode) : prog (res DeviceState InitializeError) :=
  match k with
  | IDhcp mc => initialize assertion mc m
  | IManual mc ip => initialize_manual assertion mc ip m
  | IAdvanced mc ip gateway subnet => initialize_advanced assertion mc ip gateway subnet m
  end.

Inductive lop :=
| LUninit (q : uop)
| LInit (k : setup) (m : Mode)   (* initialize, initialize_manual, initialize_advanced *)
| LInitRaw (mc : mac)            (* initialize_macraw *)
| LCall (o : op) | LRawCall (o : rawop)
| LReset                         (* Device::reset *)
| LNew                           (* UninitializedDevice::new on the bus *)
| LSleep                         (* Device::deactivate *)
| LWake (k : nat)                (* InactiveDevice::activate; a device the program held is dropped *)
| LWakeRef (k : nat).            (* InactiveDevice::activate_ref *)
Inductive lout :=
| LNone                          (* a call on an object the program does not hold: cannot be written *)
| LDev (r : devout) | LInited (r : res unit InitializeError)
| LOut (r : out) | LRaw (r : rawout) | LResetR (r : res unit ResetError) | LMade.

Definition lstep (assertion : bool) (fuel : nat) (l : life) (q : lop) : prog (life * lout) :=
  match q, ph l with
  | LUninit u, Fresh => do r <- run_uop u ;; Ret (l, LDev r)
  | LInit k m, Fresh =>
      do r <- run_setup assertion k m ;;
      match r with
      | Ok d => Ret (mkLife (Up d) (lhandles l) (lfresh l) (asleep l), LInited (Ok tt))
      | Err x => Ret (mkLife Gone (lhandles l) (lfresh l) (asleep l), LInited (Err x))
      end
  | LInitRaw mc, Fresh =>
      do r <- initialize_macraw mc ;;
      match r with
      | Ok d => Ret (mkLife (RawUp d) (lhandles l) (lfresh l) (asleep l), LInited (Ok tt))
      | Err x => Ret (mkLife Gone (lhandles l) (lfresh l) (asleep l), LInited (Err x))
      end
  | LCall o, Up d =>
      do r <- step fuel (mkApp d (lhandles l) (lfresh l)) o ;;
      Ret (mkLife (Up (dev (fst r))) (handles (fst r)) (fresh (fst r)) (asleep l), LOut (snd r))
  | LCall o, UpRef k =>
      match nth_error (asleep l) k with
      | Some d =>
          do r <- step fuel (mkApp d (lhandles l) (lfresh l)) o ;;
          Ret (mkLife (UpRef k) (handles (fst r)) (fresh (fst r)) (set_nth k (dev (fst r)) (asleep l)), LOut (snd r))
      | None => Ret (l, LNone)
      end
  | LRawCall o, RawUp d => do r <- raw_step fuel d o ;; Ret (l, LRaw r)
  | LReset, Up d =>
      do r <- dev_reset d ;;
      match r with
      | Ok _ => Ret (mkLife Fresh (lhandles l) (lfresh l) (asleep l), LResetR (Ok tt))
      | Err x => Ret (mkLife Gone (lhandles l) (lfresh l) (asleep l), LResetR (Err x))
      end
  | LReset, UpRef k =>
      match nth_error (asleep l) k with
      | Some d =>
          do r <- dev_reset d ;;
          match r with
          | Ok _ => Ret (mkLife Fresh (lhandles l) (lfresh l) (asleep l), LResetR (Ok tt))
          | Err x => Ret (mkLife Gone (lhandles l) (lfresh l) (asleep l), LResetR (Err x))
          end
      | None => Ret (l, LNone)
      end
  | LSleep, Up d => Ret (mkLife Gone (lhandles l) (lfresh l) (asleep l ++ [inactive_state (deactivate d)]), LMade)
  | LSleep, UpRef k => Ret (mkLife Gone (lhandles l) (lfresh l) (asleep l), LMade)
  | LWake k, _ =>
      match nth_error (asleep l) k with
      | Some d => Ret (mkLife (Up (activate (mkInactive d))) (lhandles l) (lfresh l) (drop_nth k (asleep l)), LMade)
      | None => Ret (l, LNone)
      end
  | LWakeRef k, _ =>
      match nth_error (asleep l) k with
      | Some d => Ret (mkLife (UpRef k) (lhandles l) (lfresh l) (asleep l), LMade)
      | None => Ret (l, LNone)
      end
  | LNew, _ => Ret (mkLife Fresh (lhandles l) (lfresh l) (asleep l), LMade)
  | _, _ => Ret (l, LNone)
  end.
Fixpoint run_life (assertion : bool) (fuel : nat) (l : life) (ops : list lop)
  : prog (life * list lout) :=
  match ops with
  | [] => Ret (l, [])
  | q :: ops' =>
      do r <- lstep assertion fuel l q ;;
      do rs <- run_life assertion fuel (fst r) ops' ;;
      Ret (fst rs, snd r :: snd rs)
  end.
