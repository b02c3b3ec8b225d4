(** Specification for C73: low-cardinality columns with other codes in the same order, so that some codes do not occur. *)
From Verif Require Import Base Num F32 DataModel DataSpec TreeModel.

Section Gap.
Context {O : numops}.
(** Code [c] of feature [f] of [d] is code [m f c] of [d']. *)
Variable m : nat -> nat -> nat.
Variables d d' : data O.
Definition same_column (f : nat) : Prop := get_feature d' f = get_feature d f /\ feat_limits d' f = feat_limits d f /\ feat_card d' f = feat_card d f /\ forall c, m f c = c.
(** A low-cardinality column with [n >= 3] codes in [d] and [n'] codes in [d'], some of which occur in no row. *)
Definition renumbered_column (f n n' : nat) : Prop :=
  feat_type_of d f = Ok LoCardCat /\ feat_card d f = Ok n /\ feat_card d' f = Ok n' /\ 3 <= n /\ (forall a b, a < b -> m f a < m f b) /\ (forall c, c < n -> m f c < n') /\
  (exists col col', get_feature d f = Ok col /\ get_feature d' f = Ok col' /\ Forall2 (fun v v' => exists c, c < n /\ v = nofnat O c /\ v' = nofnat O (m f c)) col col') /\
  exists lim lim', feat_limits d f = Ok lim /\ feat_limits d' f = Ok lim' /\ neq O (fst lim') (snd lim') = neq O (fst lim) (snd lim).
Definition renumbered : Prop :=
  d_nfeatures d' = d_nfeatures d /\ d_nexamples d' = d_nexamples d /\ d_max_nbins d' = d_max_nbins d /\ get_target d' = get_target d /\
  length (d_features d) = S (d_nfeatures d) /\ length (d_features d') = S (d_nfeatures d) /\ (forall col, In col (d_features d) \/ In col (d_features d') -> length col = d_nexamples d) /\
  forall f, f < d_nfeatures d -> feat_type_of d' f = feat_type_of d f /\ (same_column f \/ exists n n', renumbered_column f n n').

(** Tables to predict: the rows of [D'] are those of [D] with the low-cardinality categories of [d] renumbered; a code the training table [d] does not have may be any code that [d'] does not have. *)
Definition renumbered_rows (D D' : data O) : Prop :=
  d_nfeatures D = d_nfeatures d /\ d_nexamples D' = d_nexamples D /\
  length (d_features D) = S (d_nfeatures d) /\ length (d_features D') = S (d_nfeatures d) /\ (forall col, In col (d_features D) \/ In col (d_features D') -> length col = d_nexamples D) /\
  forall f, f < d_nfeatures d -> (feat_type_of d f <> Ok LoCardCat -> get_feature D' f = get_feature D f) /\
    (feat_type_of d f = Ok LoCardCat -> forall n, feat_card d f = Ok n -> exists col col', get_feature D f = Ok col /\ get_feature D' f = Ok col' /\
       Forall2 (fun v v' => forall c, c < n -> neq O v' (nofnat O (m f c)) = neq O v (nofnat O c)) col col').
(** The same tree, with the codes of the splits renumbered. *)
Definition renumbered_crit (c c' : split_crit O) : Prop :=
  sc_type c' = sc_type c /\ sc_feature c' = sc_feature c /\
  match sc_type c with
  | LoCardCatEq => exists n b, feat_card d (sc_feature c) = Ok n /\ b < n /\ sc_value c = nofnat O b /\ sc_value c' = nofnat O (m (sc_feature c) b)
  | _ => sc_value c' = sc_value c
  end.
Definition renumbered_tree (t t' : tree O) : Prop :=
  t_ninternal t' = t_ninternal t /\ t_max_depth t' = t_max_depth t /\ Forall2 renumbered_crit (t_crits t) (t_crits t') /\ t_values t' = t_values t /\ t_shrinkage t' = t_shrinkage t /\ t_bias t' = t_bias t /\ t_supercats t' = t_supercats t.
Definition renumbered_model (a a' : additive_tree O) : Prop := at_bias a' = at_bias a /\ Forall2 renumbered_tree (at_trees a) (at_trees a').
End Gap.

(** The same for the records of two CSV files with the same columns: feature [f] has the same values in both or is a categorical feature with other codes in the same order.  (At least three codes up to the largest one; the
    largest new code is below the limit for low-cardinality columns.) *)
Definition renumbered_csv (m : nat -> nat -> nat) (cfg cfg' : data_config) (items items' : list csv_item) : Prop :=
  let n := columns_of items - 1 in columns_of items' = columns_of items /\ length items' = length items /\ dc_max_nbins cfg' = dc_max_nbins cfg /\ (forall vs, column items n vs -> column items' n vs) /\
  forall f, f < n -> (In f (dc_categorical cfg) <-> In f (dc_categorical cfg')) /\
    ((forall c, m f c = c) /\ (forall vs, column items f vs -> column items' f vs) \/
     In f (dc_categorical cfg) /\ (forall a b, a < b -> m f a < m f b) /\ exists vs vs', column items f vs /\ column items' f vs' /\ (exists c, 2 <= c < dc_max_nbins cfg /\ In (nofnat f32ops c) vs) /\
       Forall2 (fun v v' => exists c, m f c < dc_max_nbins cfg /\ v = nofnat f32ops c /\ v' = nofnat f32ops (m f c)) vs vs').
