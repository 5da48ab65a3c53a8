(** Models of LayerView (include/spark_dsg/layer_view.h, src/layer_view.cpp), of
    getAncestorsOfLayer (src/scene_graph_utilities.cpp:41-62) and of the adjacency and
    Laplacian matrices (src/adjacency_matrix.cpp). *)
From Coq Require Import NArith ZArith Bool List.
From stdpp Require Import base list gmap fin_maps sorting.
From Verif.Model Require Import Types Attrs Node EdgeContainer SLayer DLayer Graph Search.
Local Open Scope N_scope.

(** Iteration over a std::map<NodeId, _>: ascending keys. *)
Definition key_le {A} (a b : N * A) : Prop := fst a <= fst b.
#[global] Instance key_le_dec {A} (a b : N * A) : Decision (key_le a b).
Proof. unfold key_le. apply _. Defined.
(** Iteration over a std::set<NodeId>. *)
Definition in_order (s : gset N) : list N := merge_sort N.le (elements s).
Definition ascending {A} (m : gmap N A) : list (N * A) := merge_sort key_le (map_to_list m).

(** ** LayerView.  An iterator is the suffix of the node map it has not passed yet; [[]] is
    end().  A null filter is [fun _ => true].  A default-constructed view (null layer) is not
    modelled: begin() would dereference the null pointer. *)
Definition ViewIter := list (N * Node).
(** layer_view.cpp:60-70 *)
Definition view_valid (filter : Node -> bool) (it : ViewIter) : bool :=
  match it with [] => false | x :: _ => filter (snd x) end.
(** layer_view.cpp:72-84: do ++iter while not at end and not valid *)
Fixpoint skip_invalid (filter : Node -> bool) (it : ViewIter) : ViewIter :=
  match it with
  | [] => []
  | x :: r => if filter (snd x) then it else skip_invalid filter r
  end.
Definition view_next (filter : Node -> bool) (it : ViewIter) : ViewIter :=
  match it with [] => [] | _ :: r => skip_invalid filter r end.
(** layer_view.cpp:41-48, 106 *)
Definition view_begin (filter : Node -> bool) (l : SLayer) : ViewIter :=
  let it := ascending (sl_nodes l) in
  if view_valid filter it then it else view_next filter it.
(** The range-for loop over a view: begin(), compare with end(), operator*, operator++. *)
Fixpoint view_loop (filter : Node -> bool) (fuel : nat) (it : ViewIter) (seen : list Node) : option (list Node) :=
  match it with
  | [] => Some seen
  | x :: _ => match fuel with
              | O => None
              | S f => view_loop filter f (view_next filter it) (seen ++ [snd x])
              end
  end.
Definition view_nodes (filter : Node -> bool) (l : SLayer) (fuel : nat) : option (list Node) :=
  view_loop filter fuel (view_begin filter l) [].

(** ** getAncestorsOfLayer, scene_graph_utilities.cpp:41-62.  Despite its name it walks down
    from [parent]; the result is the sequence of callback arguments.
    [node->layer <= child_layer] compares the LayerId with the LayerKey converted to bool
    (LayerKey has no operator<=): it stops at layers <= 1 (<= 0 for an unknown key). *)
Definition stops_at (layer : LayerId) (child_layer : LayerKey) : bool :=
  layer <=? (if key_valid child_layer then 1 else 0).
Fixpoint ancestors (g : Graph) (child_layer : LayerKey) (fuel : nat) (parent : N) : fueled (list N) :=
  match fuel with
  | O => None
  | S f =>
    match g_find_node g parent with
    | Throw => Some Throw
    | UB => Some UB
    | Ok None => Some (Ok [])
    | Ok (Some node) =>
      if stops_at (n_layer node) child_layer then Some (Ok [])
      else
        fold_left (fun acc child =>
          match acc with
          | Some (Ok vs) =>
            match g_layer_for_node g child with
            | None => Some UB
            | Some k =>
              if key_eqb k child_layer then Some (Ok (vs ++ [child]))
              else match ancestors g child_layer f child with
                   | Some (Ok ws) => Some (Ok (vs ++ ws))
                   | r => r
                   end
            end
          | r => r
          end) (in_order (n_chd node)) (Some (Ok []))
    end
  end.

(** ** Matrices over any type of weights (doubles in the code).  A matrix is a size and its
    written entries.  Siblings are enumerated in the order of [elements] (std::set: ascending),
    which only affects the rounding of a degree. *)
Section Matrix.
  Context {W : Type} (zero : W) (add : W -> W -> W) (opp : W -> W).
  Record Mat := mkMat { mt_size : nat; mt_cells : gmap (N * N) W }.
  Definition mat_get (m : Mat) (i j : N) : W := default zero (mt_cells m !! (i, j)).
  (** Writing outside the matrix is undefined (Eigen assertions are disabled in release). *)
  Definition mat_set (m : Mat) (i j : N) (w : W) : result Mat :=
    if (i <? N.of_nat (mt_size m)) && (j <? N.of_nat (mt_size m))
    then Ok (mkMat (mt_size m) (<[(i, j) := w]> (mt_cells m))) else UB.

  Context (l : SLayer) (ordering : gmap N N) (weight : N -> N -> W).

  (** adjacency_matrix.cpp:43-62 *)
  Definition adj_sibling (node : Node) (si : N) (m : Mat) (s : N) : result Mat :=
    match ordering !! s with
    | None => Ok m
    | Some j =>
      let! m1 := mat_set m si j (weight (n_id node) s) in
      mat_set m1 j si (mat_get m1 si j)
    end.
  Definition adj_row (m : Mat) (x : N * N) : result Mat :=
    let! node := at_ (sl_find_node l (fst x)) in
    rfold (adj_sibling node (snd x)) (elements (n_sib node)) m.
  Definition adjacency_matrix : result Mat :=
    rfold adj_row (ascending ordering) (mkMat (size ordering) ∅).

  (** adjacency_matrix.cpp:64-89 *)
  Definition lap_sibling (node : Node) (si : N) (st : Mat * W) (s : N) : result (Mat * W) :=
    match ordering !! s with
    | None => Ok st
    | Some j =>
      let w := weight (n_id node) s in
      let! m1 := mat_set (fst st) si j (opp w) in
      let! m2 := mat_set m1 j si (opp w) in
      Ok (m2, add (snd st) w)
    end.
  Definition lap_row (m : Mat) (x : N * N) : result Mat :=
    let! node := at_ (sl_find_node l (fst x)) in
    let! (m1, degree) := rfold (lap_sibling node (snd x)) (elements (n_sib node)) (m, zero) in
    mat_set m1 (snd x) (snd x) degree.
  Definition laplacian : result Mat :=
    rfold lap_row (ascending ordering) (mkMat (size ordering) ∅).

  (** Eigen setFromTriplets: repeated positions are summed; positions outside are undefined *)
  Definition add_triplet (m : Mat) (e : N * N * W) : result Mat :=
    let '(i, j, w) := e in
    mat_set m i j (match mt_cells m !! (i, j) with None => w | Some v => add v w end).
  Definition from_triplets (n : nat) (es : list (N * N * W)) : result Mat :=
    rfold add_triplet es (mkMat n ∅).

  (** adjacency_matrix.cpp:91-115 *)
  Definition sp_adj_row (es : list (N * N * W)) (x : N * N) : result (list (N * N * W)) :=
    let! node := at_ (sl_find_node l (fst x)) in
    Ok (es ++ omap (fun s => match ordering !! s with
                             | None => None
                             | Some j => Some (snd x, j, weight (n_id node) s) end) (elements (n_sib node))).
  Definition sparse_adjacency : result Mat :=
    let! es := rfold sp_adj_row (ascending ordering) [] in from_triplets (size ordering) es.

  (** adjacency_matrix.cpp:117-145 *)
  Definition sp_lap_row (es : list (N * N * W)) (x : N * N) : result (list (N * N * W)) :=
    let! node := at_ (sl_find_node l (fst x)) in
    let used := omap (fun s => match ordering !! s with
                               | None => None
                               | Some j => Some (j, weight (n_id node) s) end) (elements (n_sib node)) in
    let degree := fold_left (fun d y => add d (snd y)) used zero in
    Ok (es ++ map (fun y => (snd x, fst y, opp (snd y))) used ++ [(snd x, snd x, degree)]).
  Definition sparse_laplacian : result Mat :=
    let! es := rfold sp_lap_row (ascending ordering) [] in from_triplets (size ordering) es.
End Matrix.
Arguments mkMat {W} _ _.
Arguments mt_size {W} _.
Arguments mt_cells {W} _.
Arguments Mat W : clear implicits.
