(** * Spec27.v -- specification for what the optimized manager does show (definitions only, no
    proofs).

    Words of Feed.v.  The optimized manager does not take over the price of a new order: the order
    appears at the price that was last given to its id by a modification or a replacement, 0 if there
    was none. *)
From stdpp Require Import fin_maps.
From Verif Require Import Types Feed.

(** The price last given to every id by a modification or a replacement. *)
Definition given (m : feed) (M : gmap Z Z) : gmap Z Z :=
  match m with
  | FModify id p _ => <[id := p]> M
  | FReplace _ nid p q | FReplaceTo _ nid _ p q => if 0 <? q then <[nid := p]> M else M
  | FBook _ | FAdd _ _ _ _ _ | FReduce _ _ | FExecute _ _ | FExecuteAt _ _ _ | FDelete _ => M
  end.
Definition given_all (M : gmap Z Z) (ms : list feed) : gmap Z Z := fold_left (fun M m => given m M) ms M.
(** The feed with the price of every new order replaced by the price last given to its id. *)
Fixpoint stale (M : gmap Z Z) (ms : list feed) : list feed :=
  match ms with
  | [] => []
  | m :: ms => match m with FAdd id sym sd _ q => FAdd id sym sd (default 0 (M !! id)) q | _ => m end :: stale (given m M) ms
  end.

(** How many live orders there are at one price, and the quantity of one side of a book. *)
Definition orders_at (T : gmap Z live) (sym : Z) (sd : oside) (p : Z) : Z :=
  Z.of_nat (size (filter (fun x => v_sym (snd x) = sym /\ v_side (snd x) = sd /\ v_price (snd x) = p) T)).
Definition side_total (T : gmap Z live) (sym : Z) (sd : oside) : Z :=
  map_fold (fun _ v a => (if decide (v_sym v = sym /\ v_side v = sd) then v_qty v else 0) + a) 0 T.

(** A feed that names live orders, brings in orders under unused ids, and never cancels all of an
    order with a reduction (it may delete it, or trade all of it).  [room] says which orders fit. *)
Definition sent (room : gmap Z live -> Z -> Z -> oside -> Z -> Z -> Prop) (T : gmap Z live) (m : feed) : Prop :=
  match m with
  | FBook sym => 0 <= sym < 10000 /\ forall id v, T !! id = Some v -> v_sym v <> sym
  | FAdd id sym sd p q => T !! id = None /\ room T id sym sd p q
  | FReduce id q => exists v, T !! id = Some v /\ 0 <= q < v_qty v
  | FExecute id q | FExecuteAt id _ q => exists v, T !! id = Some v /\ 0 <= q <= v_qty v
  | FModify id p q => exists v, T !! id = Some v /\ 0 <= p < 2147483648 /\ (q = 0 \/ room (delete id T) id (v_sym v) (v_side v) p q)
  | FReplace id nid p q => exists v, T !! id = Some v /\ (nid = id \/ T !! nid = None) /\
      (q = 0 \/ room (delete id T) nid (v_sym v) (v_side v) p q)
  | FReplaceTo id nid sym p q => exists v, T !! id = Some v /\ (nid = id \/ T !! nid = None) /\
      (q = 0 \/ room (delete id T) nid sym (v_side v) p q)
  | FDelete id => exists v, T !! id = Some v
  end.
Fixpoint sent_all (room : gmap Z live -> Z -> Z -> oside -> Z -> Z -> Prop) (T : gmap Z live) (ms : list feed) : Prop :=
  match ms with [] => True | m :: ms => sent room T m /\ sent_all room (track m T) ms end.
(** the order fits the arrays and fields, and the level does not overflow *)
Definition fits_level (T : gmap Z live) (id sym : Z) (sd : oside) (p q : Z) : Prop :=
  0 <= id < 300000000 /\ 0 <= sym < 10000 /\ 0 <= p < 2147483648 /\ 0 < q /\ volume T sym sd p + q < 4294967296.
(** ... or even the quantity of the side does not *)
Definition fits_side (T : gmap Z live) (id sym : Z) (sd : oside) (p q : Z) : Prop :=
  0 <= id < 300000000 /\ 0 <= sym < 10000 /\ 0 <= p < 2147483648 /\ 0 < q /\ side_total T sym sd + q < 4294967296.
