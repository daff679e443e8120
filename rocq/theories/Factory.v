(** * Factory.v -- the order factories (include/trader/matching/order.inl:82-95, 124-213).
    The Buy*/Sell* forms fix the side; C++ default arguments (order.h:255-295) are explicit. *)
From Verif Require Export Types.

Definition MarketOrder (id sym : Z) (sd : oside) (qty slip : Z) : order :=
  mkOrder id sym MARKET sd 0 0 qty 0 qty IOC MAX64 slip 0 0.
Definition LimitOrder (id sym : Z) (sd : oside) (price qty : Z) (tf : otif) (maxvis : Z) : order :=
  mkOrder id sym LIMIT sd price 0 qty 0 qty tf maxvis MAX64 0 0.
Definition StopOrder (id sym : Z) (sd : oside) (stop qty : Z) (tf : otif) (slip : Z) : order :=
  mkOrder id sym STOP sd 0 stop qty 0 qty tf MAX64 slip 0 0.
Definition StopLimitOrder (id sym : Z) (sd : oside) (stop price qty : Z) (tf : otif) (maxvis : Z) : order :=
  mkOrder id sym STOP_LIMIT sd price stop qty 0 qty tf maxvis MAX64 0 0.
Definition TrailingStopOrder (id sym : Z) (sd : oside) (stop qty dist step : Z) (tf : otif) (slip : Z) : order :=
  mkOrder id sym TRAILING_STOP sd 0 stop qty 0 qty tf MAX64 slip dist step.
Definition TrailingStopLimitOrder (id sym : Z) (sd : oside) (stop price qty dist step : Z) (tf : otif) (maxvis : Z) : order :=
  mkOrder id sym TRAILING_STOP_LIMIT sd price stop qty 0 qty tf maxvis MAX64 dist step.
