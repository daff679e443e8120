(** * PropsFast2.v -- what the optimized manager (Fast2.v) shows: C53. *)
From Coq Require Import ZifyBool Sorting.Sorted.
From stdpp Require Import fin_maps.
From Verif Require Import Types Fast Feed FastOk PropsFast Fast2.

(** How the manager is driven (MyITCHHandler, lines 666-700, and the calls no message makes) and
    read (bids() / asks(), best first, with the volumes of the levels they point to). *)
Definition opt_step (m : feed) (s : ostate) : res ostate :=
  match m with
  | FBook sym => opt_add_book sym s
  | FAdd id sym sd p q => opt_add id sym sd p q s
  | FReduce id q => opt_reduce id q s
  | FExecute id q => opt_execute id None q s
  | FExecuteAt id p q => opt_execute id (Some p) q s
  | FModify id p q => opt_modify id p q s
  | FReplace id nid p q => opt_replace id nid None p q s
  | FReplaceTo id nid sym p q => do o <- get_oord id s; opt_replace id nid (Some (sym, oo_side o)) p q s
  | FDelete id => opt_delete id s
  end.
Fixpoint opt_run (ms : list feed) (s : ostate) : res ostate :=
  match ms with [] => Ok s | m :: ms => do s <- opt_step m s; opt_run ms s end.
Definition opt_levels (s : ostate) (sym : Z) (sd : oside) : list (Z * Z) :=
  omap (fun x => (fun l => (fst x, ol_vol l)) <$> op_mem (o_pool s) !! snd x) (ob_side sd (obook_at sym s)).

(** AddOrder files every order under the price its slot held before: the first order of a book, at
    price 100, is shown at price 0 ... *)
Theorem C53_price_refuted : exists s, OKF [FBook 1; FAdd 10 1 BUY 100 5] /\ opt_run [FBook 1; FAdd 10 1 BUY 100 5] opt_init = Ok s /\
  opt_levels s 1 BUY = [(0, 5)] /\ ~ depth_of (track_all ∅ [FBook 1; FAdd 10 1 BUY 100 5]) 1 BUY (opt_levels s 1 BUY).
Proof.
  eexists. split; [apply feeds_okb_ok; vm_compute; reflexivity|]. split; [vm_compute; reflexivity|]. split; [vm_compute; reflexivity|].
  intros [_ H]. specialize (H 0 5). destruct H as [H _]. destruct H as [H _]; [vm_compute; left|]. vm_compute in H. discriminate H.
Qed.
Print Assumptions C53_price_refuted.
(** ... and buy and sell orders of all prices end up at one price, crossed. *)
Theorem C53_crossed_refuted : exists s, OKF [FBook 1; FAdd 10 1 BUY 100 5; FAdd 11 1 BUY 90 7; FAdd 12 1 SELL 110 3] /\
  opt_run [FBook 1; FAdd 10 1 BUY 100 5; FAdd 11 1 BUY 90 7; FAdd 12 1 SELL 110 3] opt_init = Ok s /\ opt_levels s 1 BUY = [(0, 12)] /\ opt_levels s 1 SELL = [(0, 3)].
Proof. eexists. split; [apply feeds_okb_ok; vm_compute; reflexivity|]. split; [vm_compute; reflexivity|]. split; vm_compute; reflexivity. Qed.
Print Assumptions C53_crossed_refuted.
(** Cancelling an order completely with ReduceOrder leaves its volume in the book (also when the
    order was given its price by ReplaceOrder). *)
Definition cancel_feed : list feed := [FBook 1; FAdd 10 1 BUY 100 5; FReplace 10 11 100 5].
Theorem C53_reduce_refuted : exists s s', OKF (cancel_feed ++ [FReduce 11 5]) /\ opt_run cancel_feed opt_init = Ok s /\ opt_levels s 1 BUY = [(100, 5)] /\
  track_all ∅ (cancel_feed ++ [FReduce 11 5]) = ∅ /\ opt_step (FReduce 11 5) s = Ok s' /\ opt_levels s' 1 BUY = [(100, 5)].
Proof.
  eexists _, _. split; [apply feeds_okb_ok; vm_compute; reflexivity|]. split; [vm_compute; reflexivity|]. split; [vm_compute; reflexivity|].
  split; [apply (bool_decide_unpack _); vm_compute; exact I|]. split; [vm_compute; reflexivity|]. vm_compute; reflexivity.
Qed.
Print Assumptions C53_reduce_refuted.
