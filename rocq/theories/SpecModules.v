(** What the claims C41-C44 speak about, stated on histories of registrations and on the
    dictionaries of the library, without the functions of the model. *)
From Verif Require Import PyBase PyPath ModulesModel.
Local Open Scope string_scope.
Local Open Scope list_scope.

(** ** Histories *)

(** The registration that an operation makes: name, implementation, script stack (below, top)
    and keyword arguments. *)
Definition registers (o : libop) : option (string * string * (list string * string * opts)) :=
  match o with
  | OModule n (Some i) _ b t kw => Some (n, i, (b, t, kw))
  | OModule n None _ b t kw => Some (n, "__default__", (b, t, kw))
  | OImplementation n i _ b t kw => Some (n, i, (b, t, kw))
  | _ => None
  end.
(** The default implementation that an operation declares. *)
Definition declares (o : libop) : option (string * string) :=
  match o with
  | OModule n None _ _ _ _ => Some (n, "__default__")
  | OModule n (Some i) true _ _ _ => Some (n, i)
  | OImplementation n i true _ _ _ => Some (n, i)
  | ODefimpl n i => Some (n, i)
  | OSetDef n i _ => Some (n, i)
  | _ => None
  end.

(** [c] is the last registration under (n, i) in [h]. *)
Definition last_registered (h : list libop) (n i : string) c : Prop :=
  exists h1 o h2, h = h1 ++ o :: h2 /\ registers o = Some (n, i, c) /\
    forall o' c', In o' h2 -> registers o' <> Some (n, i, c').
Definition never_registered (h : list libop) (n i : string) : Prop :=
  forall o c, In o h -> registers o <> Some (n, i, c).
Definition known_name (h : list libop) (n : string) : Prop :=
  exists o i c, In o h /\ registers o = Some (n, i, c).
(** [i] is the last default declared for [n] in [h]. *)
Definition last_declared (h : list libop) (n i : string) : Prop :=
  exists h1 o h2, h = h1 ++ o :: h2 /\ declares o = Some (n, i) /\
    forall o' i', In o' h2 -> declares o' <> Some (n, i').
Definition never_declared (h : list libop) (n : string) : Prop :=
  forall o i, In o h -> declares o <> Some (n, i).

(** The module object for a registration. *)
Definition module_for (r : modrec) (n i : string) (c : list string * string * opts) : Prop :=
  let '(b, t, kw) := c in
  m_name r = n /\ m_impl r = Some i /\ m_stack r = Some (b ++ [t]) /\
  (forall k, sget (m_opts r) k =
     if String.eqb k "__dir__" then Some (VStr (dirname t))
     else if String.eqb k "__script__" then Some (VStr t) else sget kw k).
(** A module without options of its own. *)
Definition empty_module (r : modrec) (n i : string) : Prop :=
  m_name r = n /\ m_impl r = Some i /\ m_stack r = None /\
  (forall k v, sget (m_opts r) k = Some v -> v = VNone /\ (k = "__dir__" \/ k = "__script__")).

Definition ends {A} (r : res A) : Prop := exists msg, r = Raise (SystemExit msg).

(** ** Collecting modules *)

(** What the dictionaries of the library say. *)
Definition impl_of (lib : mlib) (n i : string) (m : nat) : Prop :=
  exists impls, sget (l_mods lib) n = Some (Variant impls) /\ sget impls i = Some m.
Definition default_of (lib : mlib) (n : string) (m : nat) : Prop :=
  exists i, sget (l_def lib) n = Some i /\ impl_of lib n i m.
(** The members of an option value; those of a string are its characters. *)
Inductive item_of : oval -> elem -> Prop :=
| item_list : forall l e, In e l -> item_of (VList l) e
| item_char : forall s1 c s2, item_of (VStr (s1 ++ String c s2)%string) (EStr (String c "")).
(** [m] has [e] in its option mdepends. *)
Definition wants (lib : mlib) (m : nat) (e : elem) : Prop :=
  exists r v, nth_error (l_heap lib) m = Some r /\ sget (m_opts r) "mdepends" = Some v /\ item_of v e.
Definition named (lib : mlib) (m : nat) (n : string) : Prop :=
  exists r, nth_error (l_heap lib) m = Some r /\ m_name r = n.
(** One module leads to another: an explicit request to the implementation requested, a plain
    one to the default. *)
Definition leads_to (lib : mlib) (m m' : nat) : Prop :=
  (exists n i, wants lib m (EPair n i) /\ impl_of lib n i m') \/
  (exists n, wants lib m (EStr n) /\ default_of lib n m').
(** Modules reachable from [root] through mdepends. *)
Inductive needed (lib : mlib) (root : nat) : nat -> Prop :=
| needed_one : forall m, leads_to lib root m -> needed lib root m
| needed_more : forall m m', needed lib root m -> leads_to lib m m' -> needed lib root m'.
(** All mdepends options are lists of strings and pairs. *)
Definition proper_mdepends (lib : mlib) : Prop :=
  forall m r v, nth_error (l_heap lib) m = Some r -> sget (m_opts r) "mdepends" = Some v ->
    exists l, v = VList l /\ forall e, In e l -> (exists n, e = EStr n) \/ (exists n i, e = EPair n i).
(** No cycle of explicit requests. *)
Definition no_explicit_cycle (lib : mlib) : Prop :=
  exists rank : nat -> nat, forall m n i m',
    wants lib m (EPair n i) -> impl_of lib n i m' -> rank m' < rank m.
(** One or more explicit requests in a row lead from [m] to [m']. *)
Inductive explicit_path (lib : mlib) : nat -> nat -> Prop :=
| ep_one : forall m n i m', wants lib m (EPair n i) -> impl_of lib n i m' -> explicit_path lib m m'
| ep_more : forall m n i m' m'', wants lib m (EPair n i) -> impl_of lib n i m' ->
    explicit_path lib m' m'' -> explicit_path lib m m''.
