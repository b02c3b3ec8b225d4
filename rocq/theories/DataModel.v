(** Model of src/data.rs.  Definitions only.  Feature names are not modelled (they are only printed). *)
From Verif Require Import Base Num F32.

(** data.rs:16-21 *)
Inductive feat_type := LoCardCat | HiCardCat | Numerical.
Definition is_locard (t : feat_type) : bool := match t with LoCardCat => true | _ => false end.

(** [Result<A, String>]; messages are not modelled. *)
Inductive result (A : Type) : Type := Done (a : A) | Err.
Arguments Done {A}. Arguments Err {A}.

(** The fields of src/config.rs:115-191 used by data.rs. *)
Record data_config := mk_dcfg { dc_max_nbins : nat; dc_categorical : list nat }.

Section Data.
Variable O : numops.

(** data.rs:24-33.  The last column is the target. *)
Record data : Type := mk_data {
  d_max_nbins : nat;
  d_nfeatures : nat;
  d_nexamples : nat;
  d_features : list (list (num O));
  d_limits : list (num O * num O);
  d_ftypes : list feat_type;
  d_cards : list nat
}.

(** lib.rs:21 [into_cat] (release build: the debug assertion is off; [as u32] saturates). *)
Definition into_cat (x : num O) : nat := Z.to_nat (ntoZ O 0 4294967295 x).

(** data.rs:206-212 *)
Definition check_categorical_value (v : num O) : result unit :=
  if negb (neq O (nround O v) v) || nlt O v (nofZ O 0) then Err else Done tt.

(** data.rs:84 and 160 *)
Definition extend_limits (l : num O * num O) (v : num O) : num O * num O := (nmin O (fst l) v, nmax O (snd l) v).

(** data.rs:128-147 [empty] *)
Definition data_empty (cfg : data_config) (nfeatures nexamples : nat) : data :=
  mk_data (dc_max_nbins cfg) nfeatures nexamples
    (repeat (repeat (nofZ O 0) nexamples) (nfeatures + 1))
    (repeat (nofZ O 0, nofZ O 0) (nfeatures + 1))
    (repeat Numerical (nfeatures + 1))
    (repeat 0 (nfeatures + 1)).

(** data.rs:157-166: the loop of [set_feature_data] over the examples; the state at an early return ([Err]) is
    kept, as the writes are done in place. *)
Fixpoint set_feature_loop (categorical : bool) (i : nat) (values feat : list (num O)) (lim : num O * num O) (card : nat)
  : list (num O) * (num O * num O) * nat * result unit :=
  match values with
  | [] => (feat, lim, card, Done tt)
  | v :: t =>
    let feat' := upd feat i v in
    let lim' := extend_limits lim v in
    if categorical then
      match check_categorical_value v with
      | Err => (feat', lim', card, Err)
      | Done _ => set_feature_loop categorical (S i) t feat' lim' (Nat.max card (1 + into_cat v))
      end
    else set_feature_loop categorical (S i) t feat' lim' card
  end.

(** data.rs:149-175 [set_feature_data]: the new data and the returned result. *)
Definition set_feature_data (d : data) (feat_id : nat) (values : list (num O)) (categorical : bool)
  : res (data * result unit) :=
  let* _ := rassert (length values =? d_nexamples d) in
  let* feat := idx (d_features d) feat_id in
  let* lim := idx (d_limits d) feat_id in
  let* card := idx (d_cards d) feat_id in
  let* _ := rassert (length feat =? d_nexamples d) in
  let '(feat', lim', card', r) := set_feature_loop categorical 0 values feat lim card in
  let* ft := idx (d_ftypes d) feat_id in
  let ft' := match r with
             | Done _ => if categorical then (if d_max_nbins d <? card' then HiCardCat else LoCardCat) else ft
             | Err => ft
             end in
  Ok (mk_data (d_max_nbins d) (d_nfeatures d) (d_nexamples d) (upd (d_features d) feat_id feat')
        (upd (d_limits d) feat_id lim') (upd (d_ftypes d) feat_id ft') (upd (d_cards d) feat_id card'), r).

(** data.rs:180-185: accessors. *)
Definition feat_limits (d : data) (f : nat) : res (num O * num O) := idx (d_limits d) f.
Definition feat_type_of (d : data) (f : nat) : res feat_type := idx (d_ftypes d) f.
Definition feat_card (d : data) (f : nat) : res nat := idx (d_cards d) f.
Definition get_feature (d : data) (f : nat) : res (list (num O)) := idx (d_features d) f.
Definition get_target (d : data) : res (list (num O)) := get_feature d (d_nfeatures d).

(** data.rs:186-198 [max_nbins] *)
Definition max_nbins (d : data) (f : nat) : res nat :=
  let* ft := feat_type_of d f in
  match ft with
  | LoCardCat => let* nbins := feat_card d f in Ok (if nbins =? 2 then 1 else if nbins =? 1 then 0 else nbins)
  | HiCardCat => Ok (d_max_nbins d)
  | Numerical => Ok (d_max_nbins d)
  end.
End Data.
Arguments mk_data {O}. Arguments d_max_nbins {O}. Arguments d_nfeatures {O}. Arguments d_nexamples {O}.
Arguments d_features {O}. Arguments d_limits {O}. Arguments d_ftypes {O}. Arguments d_cards {O}.
Arguments into_cat {O}. Arguments check_categorical_value {O}. Arguments extend_limits {O}.
Arguments set_feature_loop {O}. Arguments set_feature_data {O}. Arguments feat_limits {O}. Arguments feat_type_of {O}.
Arguments feat_card {O}. Arguments get_feature {O}. Arguments get_target {O}. Arguments max_nbins {O}.

(** What the csv reader delivers for one record: an error, or its fields; a field is the value it parses to as a
    [f32], [None] if it does not.  CSV syntax and number parsing are library code and not modelled. *)
Inductive csv_item := CsvErr | CsvRecord (fields : list (option f32)).

(** State of the loop data.rs:63-93, after the first record fixed the number of columns. *)
Record csv_state := mk_csv {
  cs_features : list (list f32); cs_limits : list (f32 * f32); cs_ftypes : list feat_type; cs_cards : list nat }.

(** data.rs:69-75 *)
Definition csv_start (cfg : data_config) (record_len : nat) : csv_state :=
  mk_csv (repeat [] record_len) (repeat (f_inf, f_ninf) record_len)
    (fold_left (fun ft c => if c <? record_len then upd ft c LoCardCat else ft) (dc_categorical cfg) (repeat Numerical record_len))
    (repeat 0 record_len).

(** data.rs:78-89: one value of a record. *)
Definition csv_value (st : csv_state) (fields : list (option f32)) (i : nat) : res (result csv_state) :=
  match nth_error fields i with
  | Some (Some v) =>
    let* col := idx (cs_features st) i in
    let* feats := set_idx (cs_features st) i (col ++ [v]) in
    let* lim := idx (cs_limits st) i in
    let* lims := set_idx (cs_limits st) i (@extend_limits f32ops lim v) in
    let* ft := idx (cs_ftypes st) i in
    if is_locard ft then
      match @check_categorical_value f32ops v with
      | Err => Ok Err
      | Done _ =>
        let* card := idx (cs_cards st) i in
        let* cards := set_idx (cs_cards st) i (Nat.max card (1 + @into_cat f32ops v)) in
        Ok (Done (mk_csv feats lims (cs_ftypes st) cards))
      end
    else Ok (Done (mk_csv feats lims (cs_ftypes st) (cs_cards st)))
  | _ => Ok Err
  end.
Fixpoint csv_record (fields : list (option f32)) (is : list nat) (st : csv_state) : res (result csv_state) :=
  match is with
  | [] => Ok (Done st)
  | i :: is' =>
    let* r := csv_value st fields i in
    match r with Err => Ok Err | Done st' => csv_record fields is' st' end
  end.

(** data.rs:63-93: the remaining records. *)
Fixpoint csv_records (record_len : nat) (items : list csv_item) (st : csv_state) : res (result csv_state) :=
  match items with
  | [] => Ok (Done st)
  | CsvErr :: _ => Ok Err
  | CsvRecord fields :: t =>
    let* r := csv_record fields (seq 0 record_len) st in
    match r with Err => Ok Err | Done st' => csv_records record_len t st' end
  end.

(** data.rs:95-101 *)
Definition csv_hicard (cfg : data_config) (st : csv_state) : list feat_type :=
  map (fun p => if dc_max_nbins cfg <? snd p then HiCardCat else fst p) (combine (cs_ftypes st) (cs_cards st)).

(** data.rs:50-126 [from_csv], with the records the reader delivers.  With no record at all [record_len - 1]
    underflows and the access to the target's name panics (data.rs:113-114). *)
Definition from_csv (cfg : data_config) (items : list csv_item) : res (result (data f32ops)) :=
  let record_len := match items with CsvRecord fields :: _ => length fields | _ => 0 end in
  let* r := csv_records record_len items (csv_start cfg record_len) in
  match r with
  | Err => Ok Err
  | Done st =>
    let* _ := rassert (0 <? record_len) in
    Ok (Done (@mk_data f32ops (dc_max_nbins cfg) (record_len - 1) (length items)
                (cs_features st) (cs_limits st) (csv_hicard cfg st) (cs_cards st)))
  end.
