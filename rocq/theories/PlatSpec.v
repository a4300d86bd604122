(** What platform options should do: no heap, values are sequences. *)
From stdpp Require Import base list gmap.
From Coq Require Import NArith.
From Verif Require Import FnModel PlatModel.

(** All plain names are in the platform, no negated one is. *)
Definition matches (platform matcher : list str) : Prop :=
  (forall p, p ∈ matcher -> (forall q, p <> c_excl :: q) -> p ∈ platform) /\
  (forall q, c_excl :: q ∈ matcher -> q ∉ platform).

Section Spec.
  Context {E : Type} `{EqDecision E}.
  Context (in_str : E -> list E -> option bool).

  Inductive kind := KStr | KTuple | KList | KSet.
  Inductive pval := PSeq (k : kind) (s : list E) | PNone | POther.

  (** What happens to a keyword. *)
  Inductive action := ASet (v : pval) | AAdd (v : pval) | ASub (v : pval).

  Definition missing (o : option pval) : Prop := o = None \/ o = Some PNone.

  (** Is [x] to be removed? *)
  Definition removed (m : pval) (x : E) (b : bool) : Prop :=
    match m with
    | PSeq KStr s => in_str x s = Some b
    | PSeq _ s => b = true <-> x ∈ s
    | _ => False
    end.

  (** The elements not removed, in order. *)
  Inductive kept (m : pval) : list E -> list E -> Prop :=
    | kept_nil : kept m [] []
    | kept_drop x s r : removed m x true -> kept m s r -> kept m (x :: s) r
    | kept_keep x s r : removed m x false -> kept m s r -> kept m (x :: s) (x :: r).

  (** Effect of an action on one keyword: from the old value (if any) to the new. *)
  Inductive effect : option pval -> action -> pval -> Prop :=
    | eff_set o v : effect o (ASet v) v
    | eff_add k a b : k = KStr \/ k = KTuple -> effect (Some (PSeq k a)) (AAdd (PSeq k b)) (PSeq k (a ++ b))
    | eff_add_list k a b : effect (Some (PSeq KList a)) (AAdd (PSeq k b)) (PSeq KList (a ++ b))
    | eff_add_missing o k b : missing o -> k <> KSet -> effect o (AAdd (PSeq k b)) (PSeq k b)
    | eff_sub k a kb b r : kept (PSeq kb b) a r ->
        effect (Some (PSeq k a)) (ASub (PSeq kb b)) (PSeq k r)
    | eff_sub_missing o k b : missing o -> effect o (ASub (PSeq k b)) (PSeq k []).

  (** An option: keyword and action. *)
  Definition spec_options := list (str * action).

  (** Options in order, each on its keyword alone. *)
  Inductive effects : (str -> option pval) -> spec_options -> (str -> option pval) -> Prop :=
    | effs_nil f g : (forall k, g k = f k) -> effects f [] g
    | effs_cons f key a v opts g :
        effect (f key) a v ->
        effects (fun k => if decide (k = key) then Some v else f k) opts g ->
        effects f ((key, a) :: opts) g.

  (** How an option is written: a keyword, or a keyword followed by + or -. *)
  Inductive reads : str -> pval -> str -> action -> Prop :=
    | reads_add k v : reads (k ++ [c_add]) v k (AAdd v)
    | reads_sub k v : reads (k ++ [c_sub]) v k (ASub v)
    | reads_set k c v : c <> c_add -> c <> c_sub -> reads (k ++ [c]) v (k ++ [c]) (ASet v).

  (** The options of the matching entries, in order. *)
  Inductive selects {V : Type} (platform : list str) :
    list (list str * list (str * V)) -> list (str * V) -> Prop :=
    | sel_nil : selects platform [] []
    | sel_take m opts l r : matches platform m -> selects platform l r ->
        selects platform ((m, opts) :: l) (opts ++ r)
    | sel_skip m opts l r : ~ matches platform m -> selects platform l r ->
        selects platform ((m, opts) :: l) r.

  (** Values as seen through the heap. *)
  Definition den (h : heap E) (v : value E) : pval :=
    match v with
    | VStr s => PSeq KStr s
    | VTuple s => PSeq KTuple s
    | VList l => PSeq KList (default [] (h !! l))
    | VSet l => PSeq KSet (default [] (h !! l))
    | VNone => PNone
    | VOther => POther
    end.
  Definition den_kw (h : heap E) (kw : kwargs E) (k : str) : option pval := den h <$> kw !! k.

  (** Options as they are written, read in the given heap. *)
  Definition reads_all (h : heap E) (opts : list (str * value E)) (sopts : spec_options) : Prop :=
    Forall2 (fun o so => reads (fst o) (den h (snd o)) (fst so) (snd so)) opts sopts.

  Definition ref (v : value E) : option loc :=
    match v with VList l | VSet l => Some l | _ => None end.

  (** No list or set is shared between keywords and option values. *)
  Record separate (h : heap E) (kw : kwargs E) (ms : list (value E)) : Prop := Separate {
    se_kw : forall k v l, kw !! k = Some v -> ref v = Some l -> (l < length h)%nat;
    se_ms : forall m l, m ∈ ms -> ref m = Some l -> (l < length h)%nat;
    se_kw_kw : forall k k' v v' l, kw !! k = Some v -> kw !! k' = Some v' ->
      ref v = Some l -> ref v' = Some l -> k = k';
    se_nodup : NoDup (omap ref ms);
    se_kw_ms : forall k v l, kw !! k = Some v -> ref v = Some l -> l ∉ omap ref ms
  }.
End Spec.
Arguments pval E : clear implicits.
Arguments action E : clear implicits.
Arguments spec_options E : clear implicits.
Arguments separate {E} h kw ms.
Arguments den {E} h v.
Arguments den_kw {E} h kw k.
Arguments ref {E} v.
Arguments reads_all {E} h opts sopts.
Arguments reads {E} key v k a.
