(** * New rooms in Python: repartition_rooms, python/src/spark_dsg/mp3d.py:386-488

    The rooms of the house file are parameters: the id and the attributes of each (get_id,
    get_attrs with its colour; mp3d.py:224-236) and the test pos_inside_room (mp3d.py:204-218,
    shapely).  The comparison of areas (shapely) is a parameter [bad] too, and is assumed not to
    raise.  What verbose=True prints is not modelled. *)
From Coq Require Import NArith Bool List.
From stdpp Require Import base list gmap.
From Verif.Model Require Import Types Mesh Attrs Node EdgeContainer SLayer DLayer Graph PyConvert Expand.
Local Open Scope N_scope.
Local Open Scope list_scope.
Set Default Proof Using "Type".

Record NewRoom := mkRoom { nr_id : N; nr_attrs : NodeAttrs; nr_inside : Vec3 -> bool }.

Section repartition.
(** [check] is min_iou_threshold > 0 *)
Context (rooms : list NewRoom) (check : bool) (bad : NewRoom -> list NodeAttrs -> bool).

(** G.remove_node(i), mp3d.py:412-413 and 482-483 *)
Definition drop_node (g : Graph) (i : N) (r : result Graph) : Prop :=
  py_then (eq (g_remove_node g i)) (fun bg r => r = Ok (snd bg)) r.
(** mp3d.py:424-431; add_node ignores what emplaceNode returns (spark_dsg_bindings.cpp:627-633) *)
Definition add_room (building : option N) (g : Graph) (room : NewRoom) (r : result Graph) : Prop :=
  let g1 := snd (g_emplace_node g ROOMS (nr_id room) (nr_attrs room)) in
  match building with
  | Some b => join_room (nr_id room) g1 b r
  | None => r = Ok g1
  end.
(** mp3d.py:437-446: the first room around the place *)
Definition place_room (g : Graph) (x : N) (r : result Graph) : Prop :=
  py_then (eq (g_get_position g x)) (fun pos r =>
    match List.find (fun room => nr_inside room pos) rooms with
    | Some room => join_room x g (nr_id room) r
    | None => r = Ok g
    end) r.
(** mp3d.py:459: the nodes of the children (a copy of the std::set, in any order) *)
Definition child_attrs (g : Graph) (acc : list NodeAttrs) (i : N) (r : result (list NodeAttrs)) : Prop :=
  py_then (eq (g_get_node g i)) (fun n r => r = Ok (acc ++ [n_attrs n])) r.
(** room_id_to_gt_index, mp3d.py:423 and 433: the last room with the id *)
Definition gt_room (id : N) : option NewRoom := List.find (fun room => nr_id room =? id) (rev rooms).
(** mp3d.py:458-480: one round *)
Definition check_room (g : Graph) (acc : list N) (id : N) (r : result (list N)) : Prop :=
  py_then (eq (g_get_node g id)) (fun node r =>
    py_then (py_over (child_attrs g) (elements (n_chd node)) []) (fun places r =>
      match places with
      | [] => r = Ok (acc ++ [id])
      | _ => if check then
               match gt_room id with
               | None => r = Throw
               | Some room => r = Ok (if bad room places then acc ++ [id] else acc)
               end
             else r = Ok acc
      end) r) r.

(** the copy without its rooms, mp3d.py:408-413 *)
Definition without_rooms (g : Graph) : result Graph -> Prop :=
  py_then (eq (g_clone g)) (fun c =>
    py_then (eq (layer_nodes c ROOMS)) (fun ids => py_over drop_node ids c)).
(** mp3d.py:420-431; the iteration of the layer of the buildings is in any order *)
Definition with_rooms (c : Graph) : result Graph -> Prop :=
  py_then (eq (layer_nodes c BUILDINGS)) (fun ids r =>
    exists l, l ≡ₚ ids /\ py_each (add_room (head l)) rooms c r).
Definition repartition_rooms (g : Graph) : result Graph -> Prop :=
  py_then (without_rooms g) (fun c =>
  py_then (with_rooms c) (fun c =>
  py_then (py_then (eq (layer_nodes c PLACES)) (fun ids => py_over place_room ids c)) (fun c =>
  py_then (assign_room_edges c) (fun c =>
  py_then (py_then (eq (layer_nodes c ROOMS)) (fun ids => py_over (check_room c) ids [])) (fun invalid =>
  py_each drop_node invalid c))))).
End repartition.
