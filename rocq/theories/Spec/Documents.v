(** What DocumentManager promises: a map from ids to documents. *)
From Coq Require Import ZArith List.
From Verif Require Import Model.Base Model.Text Model.Conversions Model.DocumentManager Spec.Linearizable.
Import ListNotations.
Open Scope Z_scope.

Section Documents.
  Context {A M Hd V PI Input Data Output : Type} (sv : services A M Hd V PI Input Data Output).
  Local Notation doc := (document A M Hd V PI).
  Local Notation op := (op Input Data).
  Local Notation result := (result A M Hd V PI Data Output).

  (** The documents held, how many ids and how many unique ids were given out. *)
  Record library := Library { held : Z -> option doc; ids_given : Z; uniques_given : Z }.
  Definition empty : library := Library (fun _ => None) 0 0.

  (** The documents of l' are those of l except that id now has d. *)
  Definition replaced (id : Z) (d : option doc) (l l' : library) : Prop :=
    held l' id = d /\ (forall i, i <> id -> held l' i = held l i) /\
    ids_given l' = ids_given l /\ uniques_given l' = uniques_given l.
  Definition unchanged (l l' : library) : Prop :=
    (forall i, held l' i = held l i) /\ ids_given l' = ids_given l /\ uniques_given l' = uniques_given l.

  (** The document a create call makes, if it can. *)
  Inductive makes : op -> outcome doc -> Prop :=
  | makes_input i : makes (CreateFromInput i) (sv_parse sv i)
  | makes_throw d : sv_write sv d = Throw -> makes (CreateFromScore d) Throw
  | makes_ub d : sv_write sv d = UB -> makes (CreateFromScore d) UB
  | makes_partwise d p : sv_write sv d = Ok p -> sv_is_timewise sv d = false -> makes (CreateFromScore d) (Ok (Partwise p))
  | makes_timewise d p : sv_write sv d = Ok p -> sv_is_timewise sv d = true ->
      makes (CreateFromScore d) (omap Timewise (partwiseTimewise (sv_attrs sv) (sv_music sv) p)).

  (** The partwise and timewise forms used by getData. *)
  Definition partwise_form (t : score_tw A M Hd V PI) : score_pw A M Hd V PI := timewisePartwise (sv_attrs sv) (sv_music sv) t.
  Definition timewise_form (p : score_pw A M Hd V PI) : outcome (score_tw A M Hd V PI) := partwiseTimewise (sv_attrs sv) (sv_music sv) p.

  (** [says o l r l']: call o on l gives r and leaves l'. *)
  Inductive says : op -> library -> result -> library -> Prop :=
  | create_ok o l d l' : makes o (Ok d) ->
      held l' (ids_given l + 1) = Some d -> (forall i, i <> ids_given l + 1 -> held l' i = held l i) ->
      ids_given l' = ids_given l + 1 -> uniques_given l' = uniques_given l ->
      says o l (RId (ids_given l + 1)) l'
  | create_fails o l l' : makes o Throw -> unchanged l l' -> says o l RThrow l'
  | write_unknown id l l' : held l id = None -> unchanged l l' -> says (Write id) l RNothing l'
  | write_known id d x l l' : held l id = Some d -> sv_save sv d = Ok x -> unchanged l l' -> says (Write id) l (RWritten x) l'
  | write_fails id d l l' : held l id = Some d -> sv_save sv d = Throw -> unchanged l l' -> says (Write id) l RThrow l'
  | get_unknown id l l' : held l id = None -> unchanged l l' -> says (GetData id) l (RData (sv_no_data sv)) l'
  | get_partwise id p x l l' : held l id = Some (Partwise p) -> sv_read sv p = Ok x -> unchanged l l' ->
      says (GetData id) l (RData x) l'
  | get_partwise_fails id p l l' : held l id = Some (Partwise p) -> sv_read sv p = Throw -> unchanged l l' ->
      says (GetData id) l RThrow l'
  | get_timewise id t t' x l l' : held l id = Some (Timewise t) -> sv_read sv (partwise_form t) = Ok x ->
      timewise_form (partwise_form t) = Ok t' -> replaced id (Some (Timewise t')) l l' ->
      says (GetData id) l (RData (sv_set_timewise sv x)) l'
  | get_timewise_fails id t l l' : held l id = Some (Timewise t) -> sv_read sv (partwise_form t) = Throw ->
      replaced id (Some (Partwise (partwise_form t))) l l' ->
      says (GetData id) l RThrow l'
  | destroy id l l' : replaced id None l l' -> says (Destroy id) l RNothing l'
  | fetch id l l' : unchanged l l' -> says (GetDocument id) l (RDoc (held l id)) l'
  | unique l l' : (forall i, held l' i = held l i) -> ids_given l' = ids_given l -> uniques_given l' = uniques_given l + 1 ->
      says GetUniqueId l (RId (1000000 + uniques_given l)) l'.

  (** Calls whose behaviour is undefined: undefined parsing, writing or reading, and
      running out of ids. *)
  Inductive undefined : op -> library -> Prop :=
  | undefined_make o l : makes o UB -> undefined o l
  | undefined_id o d l : makes o (Ok d) -> ids_given l + 1 = 2147483647 -> undefined o l
  | undefined_save id d l : held l id = Some d -> sv_save sv d = UB -> undefined (Write id) l
  | undefined_read id p l : held l id = Some (Partwise p) -> sv_read sv p = UB -> undefined (GetData id) l
  | undefined_read_tw id t l : held l id = Some (Timewise t) -> sv_read sv (partwise_form t) = UB -> undefined (GetData id) l
  | undefined_unique l : 1000000 + uniques_given l = 2147483647 -> undefined GetUniqueId l.

  (** A history of calls with their results. *)
  Inductive legal : library -> list (op * result) -> library -> Prop :=
  | legal_nil l : legal l [] l
  | legal_cons o r h l l1 l2 : says o l r l1 -> legal l1 h l2 -> legal l ((o, r) :: h) l2.
End Documents.

(** Ids given out by the create calls and by getUniqueId of a history. *)
Definition new_ids {A M Hd V PI Input Data Output} (h : list (op Input Data * result A M Hd V PI Data Output)) : list Z :=
  flat_map (fun e => match e with
    | (CreateFromInput _, RId id) => [id] | (CreateFromScore _, RId id) => [id] | _ => [] end) h.
Definition unique_ids {A M Hd V PI Input Data Output} (h : list (op Input Data * result A M Hd V PI Data Output)) : list Z :=
  flat_map (fun e => match e with (GetUniqueId, RId id) => [id] | _ => [] end) h.

(** The id a call is about; create calls and getUniqueId are about none. *)
Definition about {Input Data} (o : op Input Data) : option Z :=
  match o with
  | Write id => Some id | GetData id => Some id | Destroy id => Some id | GetDocument id => Some id
  | CreateFromInput _ => None | CreateFromScore _ => None | GetUniqueId => None
  end.

(** What a call about an id without a document returns. *)
Definition neutral {A M Hd V PI Input Data Output} (sv : services A M Hd V PI Input Data Output)
  (o : op Input Data) : result A M Hd V PI Data Output :=
  match o with GetData _ => RData (sv_no_data sv) | GetDocument _ => RDoc None | _ => RNothing end.

(** What is seen of a concurrent execution: calls and returns. *)
Definition to_point {A M Hd V PI Input Data Output} (e : event) : point (op Input Data) (result A M Hd V PI Data Output) :=
  match e with Invoke t o => Call t o | Return_ t o r => Ret t o r end.
Definition returned {A M Hd V PI Input Data Output} (tr : list event) : list (op Input Data * result A M Hd V PI Data Output) :=
  flat_map (fun e => match e with Return_ _ o r => [(o, r)] | _ => [] end) tr.

(** Thread u is in a call or has calls left to make. *)
Definition busy {A M Hd V PI Input Data Output} (c : @config A M Hd V PI Input Data Output) (u : nat) : Prop :=
  t_now (c_threads c u) <> None \/ t_todo (c_threads c u) <> [].

(** The manager's state stands for a library. *)
Definition rep {A M Hd V PI} (s : manager A M Hd V PI) (l : library) : Prop :=
  (forall i, m_find i (dm_docs s) = held l i) /\ dm_next s = ids_given l + 1 /\ dm_unique s = 1000000 + uniques_given l.

(** Running the rest of a call without interruption. *)
Fixpoint finish {A M Hd V PI Input Data Output} (sv : services A M Hd V PI Input Data Output)
  (is : list instr) (l : locals) (s : manager A M Hd V PI) : answer :=
  match is with
  | [] => Returns (l_result l) s
  | i :: r => match exec sv i s l with
              | Next s1 l1 => finish sv r l1 s1
              | Leave s1 l1 => Returns (l_result l1) s1
              | Boom => Crash
              end
  end.
