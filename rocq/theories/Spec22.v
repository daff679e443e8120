(** * Spec22.v -- what the ITCH example should print. *)
From Coq Require Import Ascii String.
From stdpp Require Import strings.
From Verif Require Import Types Itch ItchSpec.
From Verif Require Print.
Open Scope Z_scope. Open Scope list_scope.

(** What a message on the wire says to the program: its name and its fields as they are delivered (ItchSpec.delivered: C42).  A message
    of an unknown type says only its type. *)
Definition told : Type := string * list (string * value).
Inductive says : list Z -> told -> Prop :=
| sa_known t name fs vs : (t, name, fs) ∈ layouts -> wire_message t fs vs -> says (encode fs vs) (name, delivered_fields fs vs)
| sa_unknown t rest : (forall c name fs, (c, name, fs) ∈ layouts -> chr c <> t) -> says (t :: rest) ("UnknownMessage"%string, [("Type"%string, VText [t])]).
(** The text of a field: a number as a numeral, a name as WriteString writes it, a single character as WriteChar writes it, but two of
    them just as they are. *)
Definition field_text (wc : Z -> string) (ws : list Z -> string) (f : string) (v : value) : string :=
  match v with
  | VNum x => Print.dec x
  | VText [c] => if String.eqb f "BreachedLevel" || String.eqb f "IPOReleaseQualifier" then String (ascii_of_N (Z.to_N c)) "" else wc c
  | VText s => ws s
  end%string.
(** The line of a message: its name, and in brackets its fields with their names in the order they have on the wire. *)
Definition line (wc : Z -> string) (ws : list Z -> string) (x : told) : string :=
  (x.1 +:+ "(" +:+ String.concat "; " (map (fun p : string * value => p.1 +:+ "=" +:+ field_text wc ws p.1 p.2) x.2) +:+ ")")%string.
Fixpoint lines (l : list string) : string := match l with [] => "" | a :: l => a +:+ String "010" (lines l) end%string.
(** Characters that occur in names and codes: printable ones, except the two that end a field here. *)
Definition ordinary (b : Z) : Prop := 32 <= b < 127 /\ b <> chr ";" /\ b <> chr ")".
Definition ordinary_text (x : told) : Prop := forall f s, (f, VText s) ∈ x.2 -> Forall ordinary s.
(** Characters that end neither a field nor a line. *)
Definition inside (c : ascii) : bool := negb (Ascii.eqb c ";" || Ascii.eqb c ")" || Ascii.eqb c "010").
Fixpoint all_inside (s : string) : bool := match s with EmptyString => true | String c s => inside c && all_inside s end.
(** WriteChar and WriteString write different texts for different ordinary characters and names, and no such ends into them. *)
Definition faithful (wc : Z -> string) (ws : list Z -> string) : Prop :=
  (forall c, ordinary c -> all_inside (wc c) = true) /\ (forall c d, ordinary c -> ordinary d -> wc c = wc d -> c = d) /\
  (forall s, Forall ordinary s -> all_inside (ws s) = true) /\ (forall s t, Forall ordinary s -> Forall ordinary t -> ws s = ws t -> s = t).
