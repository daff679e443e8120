(** * Spec3.v -- specification vocabulary for clients that rebuild the books and orders from the
    notifications alone (definitions only, no proofs). *)
From stdpp Require Import fin_maps.
From Verif Require Import Types Book Engine Manager Spec Spec2.

(** States reached by histories in which every call satisfies a condition that may look at the
    state it is made in. *)
Inductive reach_if (P : state -> op -> Prop) : state -> Prop :=
| ri_init : reach_if P init
| ri_step s a s' er : reach_if P s -> op_ok s a -> P s a -> step s a = Ok (s', er) -> reach_if P s'.

(** ** A client that keeps the price levels
    per book the levels it has been told about, by level type and price. *)
Definition levels_view : Type := ltype -> Z -> option linfo.
Definition mirror : Type := Z -> option levels_view.
Definition view_set (t : levels_view) (l : linfo) (x : option linfo) : levels_view :=
  fun ty p => if decide (ty = li_type l /\ p = li_price l) then x else t ty p.
Definition mirror_set (c : mirror) (i : Z) (x : option levels_view) : mirror :=
  fun j => if decide (j = i) then x else c j.
Definition knows (t : levels_view) (l : linfo) : bool := match t (li_type l) (li_price l) with Some _ => true | None => false end.

(** What the client does with a notification; [None]: the notification contradicts what it knows
    (a level added twice, an unknown level changed or deleted, an unknown book, ...). *)
Definition hear (c : mirror) (ev : event) : option mirror :=
  match ev with
  | EAddBook i => match c i with None => Some (mirror_set c i (Some (fun _ _ => None))) | Some _ => None end
  | EDeleteBook i => match c i with Some _ => Some (mirror_set c i None) | None => None end
  | EUpdateBook i _ => match c i with Some _ => Some c | None => None end
  | EAddLevel i l _ => t ← c i; if knows t l then None else Some (mirror_set c i (Some (view_set t l (Some l))))
  | EUpdateLevel i l _ => t ← c i; if knows t l then Some (mirror_set c i (Some (view_set t l (Some l)))) else None
  | EDeleteLevel i l _ => t ← c i; if knows t l then Some (mirror_set c i (Some (view_set t l None))) else None
  | _ => Some c
  end.
Fixpoint hear_all (c : mirror) (evs : list event) : option mirror :=
  match evs with [] => Some c | ev :: evs => c' ← hear c ev; hear_all c' evs end.
Definition deaf : mirror := fun _ => None.

(** What the bid and ask levels of a book are. *)
Definition shown (b : book) (ty : ltype) (p : Z) : option linfo :=
  l_info <$> find_level p (s_lvls (match ty with BID => b_bids b | ASK => b_asks b end)).
(** The client knows exactly the books there are and exactly their bid and ask levels. *)
Definition mirrors (c : mirror) (s : state) : Prop := forall i,
  match get_book i s, c i with
  | Some b, Some t => forall ty p, t ty p = shown b ty p
  | None, None => True
  | _, _ => False
  end.

(** [l] is at the best price of its side among the levels of [t]. *)
Definition best_in (t : levels_view) (l : linfo) : Prop := forall p, t (li_type l) p <> None ->
  match li_type l with BID => p <= li_price l | ASK => li_price l <= p end.
(** A level notification, with its book and Top flag. *)
Definition level_event (ev : event) : option (Z * bool) :=
  match ev with EAddLevel i _ top | EUpdateLevel i _ top | EDeleteLevel i _ top => Some (i, top) | _ => None end.
(** Every level notification is followed at once by onUpdateOrderBook for the same book with the
    same flag, and onUpdateOrderBook is called only then. *)
Inductive paired : list event -> Prop :=
| pd_nil : paired []
| pd_level ev i top evs : level_event ev = Some (i, top) -> paired evs -> paired (ev :: EUpdateBook i top :: evs)
| pd_other ev evs : level_event ev = None -> (forall i top, ev <> EUpdateBook i top) -> paired evs -> paired (ev :: evs).

(** ** A client that keeps the orders *)
(** [o] after [q] of it has been executed. *)
Definition after_fill (q : Z) (o : order) : order := set_exec (u64 (o_exec o + q)) (set_leaves (o_leaves o - q) o).
(** [None]: an order added twice, an unknown order changed, executed or deleted, or an execution
    reported for an order that is not as last reported (but for the Price of a market order). *)
Definition listen (c : gmap Z order) (ev : event) : option (gmap Z order) :=
  match ev with
  | EAddOrder o => match c !! o_id o with None => Some (<[o_id o := o]> c) | Some _ => None end
  | EUpdateOrder o => match c !! o_id o with Some _ => Some (<[o_id o := o]> c) | None => None end
  | EDeleteOrder o => match c !! o_id o with Some _ => Some (delete (o_id o) c) | None => None end
  | EExecute o _ q =>
      x ← c !! o_id o;
      if decide (x = o \/ (o_type o = MARKET /\ set_price (o_price o) x = o)) then Some (<[o_id o := after_fill q o]> c) else None
  | _ => Some c
  end.
Fixpoint listen_all (c : gmap Z order) (evs : list event) : option (gmap Z order) :=
  match evs with [] => Some c | ev :: evs => c' ← listen c ev; listen_all c' evs end.

(** The order id a call refers to, and calls that bring in an order under an id no other order
    has. *)
Definition refers (a : op) : option Z :=
  match a with
  | ReduceOrder i _ | ModifyOrder i _ _ | MitigateOrder i _ _ | ReplaceOrder i _ _ _ | ReplaceWith i _
  | DeleteOrder i | ExecuteOrder i _ | ExecuteOrderAt i _ _ => Some i
  | _ => None
  end.
Definition fresh_ids (s : state) (a : op) : Prop := forall i, introduces a i -> get_order i s = None \/ refers a = Some i.
