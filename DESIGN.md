# Spark-DSG in Rocq: design

## 1. Shape of the development

All Coq sources are under `rocq/theories/` (logical name `Verif`).

* `Model/*.v` – executable Gallina model of the C++ code, function by function.  Every definition cites the file and
  lines it models and says where it simplifies.
* `Spec/*.v` – small specifications that do not use the model's algorithms: abstract graphs and logs of calls,
  reachability, sets of points, what a program or a file is, what "the count of" means.
* `Proof/*.v` – invariants, simulation lemmas, induction.
* `Properties/*.v` – the property theorems `Cxx_…`, their `Print Assumptions`, and `Example`s (`…_case`) showing that
  the hypotheses are met by concrete, non-trivial values.

`properties.jsonl` states the properties in English (generated by `tools/props.py`), `MANIFEST.json` lists the theorems
of each (generated by `tools/manifest.py` from the theorem names: `Cxx_…` belongs to Cxx, `C08_C12_…` to C08–C12).

Naming of theorems: `…_refuted` shows by a concrete reachable execution that a natural reading of the property is
false of the code; the English statement in `properties.jsonl` then carries the condition that makes it true, and the
other theorems of the property prove that statement in full.  There is no theorem named `…_partial`.

## 2. Modelling conventions

* `NodeId`, `LayerId`, sizes, IEEE bit patterns: `N`.  Wrap-around (`mod 2^64`, `2^56`, `2^32`, `2^24`, `2^8`) is
  explicit wherever the code can reach it.  Timestamps: `Z`.
* `std::map`/`std::set` are std++ `gmap`/`gset`.  The C++ iteration order (ascending key) is kept where the result
  depends on it (`ascending` in views, matrices and the logger; order of edge keys); elsewhere loops run in the order
  of `map_to_list`/`elements` and the theorems describe the result independently of the order.
* `result A := Ok a | Throw | UB`: `Throw` is a C++ exception, `UB` is undefined behaviour (null or dangling
  dereference, out-of-range access, out-of-range float-to-integer conversion).  A call that throws has no
  resulting state in the model; the theorems about throwing calls say when they throw.
* A `unique_ptr<Attributes>` is the value itself; `clone()` is the identity on values.  Pointer identity is modelled
  only where the code depends on it (the receiver thread, C50).
* Floating point values that are only stored, compared or copied are bit patterns (IEEE equality and NaN are explicit
  where `==` is used).  Where the code computes: `Model/Numbers.v` has a record of arithmetic operations and two
  instances, exact rationals and binary32 (`SpecFloat`, round to nearest even).  Geometry is proved for the exact
  instance (for all boxes and points); the deviations of binary32 are separate theorems.  Colours are proved directly
  for binary32.  The position arithmetic of `mergeGraph` and the width of old bounding boxes use a parameter
  for the float addition and subtraction: the theorems hold for every choice.
* Loops are structural recursion, or recursion on fuel with a theorem that the fuel suffices (searches, views).
* Threads (C50): an interleaving transition system over the shared fields, one step per access or critical section.
* Logging (`SG_LOG`), texts of exceptions and warnings are dropped.

## 3. How each property is modelled and proved

Histories: `Spec/GraphHistory.v` runs lists of calls on the model; `Spec/GraphObs.v` defines what is observable and
`reachable` (what lists of allowed calls on a new graph with any layer ids give; the exact rules are in the file); `Spec/AbstractGraph.v` is an independent abstract graph: one
map from ids to (layer, time, attributes) and one map from unordered pairs to edge attributes.  The central result is
the simulation `Rep g a` (`Proof/GraphRep.v` … `GraphSim.v`), proved for each call and lifted to all histories by
induction; most graph properties are read off it.

| id | model | specification | proof |
|----|-------|---------------|-------|
| C01, C02 | `Types` shifts and masks | arithmetic in the statement | `Arith`, `IdsP`: div/mod lemmas, all ids |
| C03, C16–C24, C51 | `Graph`, `SLayer`, `DLayer`, `EdgeContainer`, `Queries` | `AbstractGraph`, `GraphHistory`, `GraphObs` | simulation for every call (`GraphNodes`, `GraphEdges`, `GraphAttrs`, `GraphDyn`, `GraphRemove`, `GraphMerge`, `GraphSim`), then `GraphProps*`, `GraphCounts`; limits of the fragment are witnesses in `P20_Limits` |
| C04 | `Types` LayerKey | in the statement | case analysis |
| C05, C06 | `EdgeContainer` | `EdgeLog`: a log of calls | refinement by induction on the log (`EdgeLogP`); graph-level reports in `GraphProps3` |
| C07 | `EdgeContainer`, `Graph` mark and sweep | sets of touched edges | `StaleP`, `StaleP2`: exact effect of the sweep |
| C08–C12 | `SLayer` | `LayerLog`: a log of calls with statuses | refinement by induction (`LayerLogP`, `LayerLogP2`, `SLayerMerge`) |
| C13–C15 | `DLayer` | positions, times, chain of consecutive poses | invariant `dl_wf` (`DLayerP`, `DLayerOps`), chain invariant over histories |
| C25 | `Graph` clone | bisimulation statement over all later histories | `CloneP`, `LayerClone` |
| C26 | `Graph` updateFromLayer | `GraphObs` | `UpdateP` |
| C27 | `Graph` mergeGraph, both layer kinds | `MergeSpec` | `MergeP1`–`MergeP7`: invariants of the three phases |
| C28–C31 | `Search` (fuel) | `Spec/Search`: paths, distance, components | `SearchP`–`SearchP4`: BFS invariant, termination |
| C32–C34 | `Views` | `Spec/Views` | `MatrixP*`, `ViewP`, `QueryP*` |
| C35–C38 | `Binary` byte buffers | `BinarySpec` | `BinaryP` (round trip in any position of any buffer), `BinarySafe` (no read outside, for every byte string) |
| C39, C45, C52 | `AttrCodec`, `Attrs`, `Mesh` | `AttrSpec`, `EqSpec` | `AttrP`, `AttrSafe`, `SaveLoad`, `EqP`: field lists drive reader and writer |
| C40, C47 | `Versioning` | `FileSpec` | `FileP`, case analysis on byte strings |
| C41, C42 | `GraphCodec` | `GraphFileSpec` | `GraphCodecP`, `TransferP`: reading is a history of calls of the graph model, so C51 applies |
| C43, C44 | `Mesh` | `MeshSpec` | `MeshP` |
| C46 | `Registry` | `RegistrySpec`, `ProgramSpec` | `RegistryP` |
| C48 | `BBox` over exact arithmetic | `BoxSpec`: sets of points | `BBoxP`; binary32 deviations by computation |
| C49 | `Color` in binary32 | `ColorSpec` | `FloatP`, `ColorP`: rounding bounds through Flocq |
| C50 | `Zmq` two threads | `ZmqSpec` | `ZmqP`: invariants over all interleavings; contents of the graph from C42 |
| C53 | `AttrCodec`, `GraphCodec`, `Versioning` at old versions | `LegacySpec` | `LegacyP`, `LegacyFileP` |
| C54, C55 | `Json`, `JsonCodec`, `GraphJson` | `JsonSpec` | `JsonP`, `JsonNum`, `JsonAttrP`, `GraphJsonP` |
| C56 | `Rotation` over exact, real and binary32 arithmetic | `RotationSpec` | `RotationP` |
| C57 | `Names` | in the statement | `NamesP` |
| C58 | `Logger` | `LoggerSpec` | `LoggerP`, `LoggerP2` |
| C59 | `JsonCodec`, `GraphJson` at old versions | `OldJsonSpec` | `OldJsonP`, `OldJsonP2` |
| C60 | `GraphJson` on arbitrary documents | `JsonDocSpec` | `JsonDocP` |
| C61 | `Iterators`: the iterator classes of the Python bindings, a C++ iterator being the suffix not yet passed; pybind11's make_iterator from its documentation | `IterSpec` (`visits`, `breaks`, `lists_nodes`, `lists_edges`) | `IterP`: induction on the remaining suffix |
| C62 | `Fit`: computeAncestorBoundingBox and MeshAdaptor on top of `Search.ancestors` and `BBox.box_extract`; points are read once, in order | `BoxSpec.smallest_aligned`, `Views.below` | C33 gives the nodes visited, C48 the fit; induction on the list of points |
| C63 | the change reports of `Graph`, `SLayer`, `DLayer`, `EdgeContainer` as already modelled | `MirrorSpec`: the mirror (two sets), `after_reports`, `plain` calls, rounds (`follows`) | one-call lemma: a status only changes to NEW, or from live to removed, in the container the pair belongs to; then induction over the history and over the rounds |
| C64 | `MeshMatrix`: the four Eigen conversions of the bindings over `Mesh`; doubles as bit patterns, products and quotients by `SpecFloat` | `MeshMatrixSpec` (`has_rows`, `kept_or_zero`, `opaque`) | closed forms of the loops by induction on the columns; the 256 channel values by computation, lifted to all bytes |
| C65 | `MeshMatrix.mesh_transform` over the arithmetic of `Numbers` | `MeshMatrixSpec` (`rotation`, `moved`, `dist2`) | ring identities over the rationals from the orthonormal rows and columns |
| C66 | `GraphCodec.read_graph`, `update_from_buffer`, `load_binary` on arbitrary bytes | `MessageSpec`: a reader of the format that has no graph, and what a graph has after a message | reading = reading the message, then the API call of each entry (`update_applied`); induction over the entries with the invariants of C42 and the sweep theorem of C32 |
| C67 | `Color.exponential_offset`, `color_rainbow_id` over both arithmetics | exact fractions; `shows_hue` of `ColorSpec` | hues as odd numerators over powers of two (`RainbowP`), injection of a finite set into itself; exactness of binary32 on dyadic fractions (`RainbowP2`); one computation over the 512 hues |
| C68 | the readers of `Binary`, `AttrCodec`, `GraphCodec`, `Versioning` as they are | `CutSpec`: a cut is a beginning of the bytes that were used | every reader that succeeds on a beginning of a buffer does the same on the whole (`PrefixP.mono`), and it stays inside (C37), so it cannot have succeeded on less than it used |
| C69 | `Session`: each call as a program that enters and leaves header scopes and reads the header; threads with one header cell each, stepped by a schedule | `SessionSpec.alone`: the readers and writers of C39-C59 with their explicit version | a thread's view of the process is a function of its own steps; invariant: the rest of a running call answers as alone and leaves the current header |
| C70 | `Disk`: save and load by name on a map of files, with kill points; JSON texts as documents | `DiskSpec`: which file a name stands for, which calls write a file; `loaded_from`, `loaded_from_json` | a file is the value of its last writer; then C41, C45, C54, C68 |
| C71 | saving then loading (`TripSpec.trip`, from the models of C41 and C54), folded over a list | `loaded_from`, `same_contents`, `json_lossless` | induction over the list: a loaded graph can be saved again, because the last slot of each of its dynamic layers is in use |
| C72 | reading and applying messages (C42) folded over a list of arrivals; the receiver's threads (C50) | `StreamSpec`: what published graphs have in common, histories of a static sender, the mesh after a list of messages | any two published graphs can update each other, and a graph that equals one of them can be updated like it; static histories keep every id at home (abstract graph, C51) |
| C73 | conversions of JSON numbers (`Json.fl_round`, `double_trunc`, `get_*`) on bit patterns | `NumberSpec`: the real number of a bit pattern, the nearest number of a format | `fl_round` is Flocq's rounding to nearest even in the format FLT; truncation is `Ztrunc` |
| C74 | `ZmqLife`: the loop test, constructor and destructor around the two threads of C50; what `should_shutdown_` holds before the destructor is a parameter | `ZmqLifeSpec`: steps of the receive thread, messages delivered | a decreasing measure on the receive thread once the flag is set; invariants relating place, flag and phase |
| C75 | `PyConvert`: the loops of networkx.py over the iterators of C61 as a big-step relation; `networkx.Graph` as two maps | `ConvertSpec`: which nodes are shown, their attributes | loops are folds over what the iterators yield; invariant: every entry is the one the graph prescribes, end points come before edges |
| C76 | `Torch`: scene_graph_to_torch_homogeneous over the iterators of C61; a tensor is the list of its rows; `to_undirected` of torch_geometric modelled from its documentation | `TorchSpec`: direction of an edge, one row per id | loop invariants (row i is the i-th node, column k the k-th edge); the counts equal the lengths of the loops; no column is the reversal of another; `TorchLayer` for one layer |
| C77 | `Expand`: expand_rooms as a big-step relation, the flood fill as a small-step one; the order of Python sets and what the heap yields are arbitrary | `ExpandSpec`: spreading of a room along siblings without one, rooms after an assignment, bordering rooms | a logic of programs that always succeed (`total`); invariant of the flood fill (assigned places have a room that spreads to them, the siblings of processed places are pending), lexicographic measure (places not visited, length of the frontier); every state is the given graph plus a set of edges (`ext`) |
| C78 | `Repartition`: repartition_rooms as a big-step relation over the graph operations, loops over layers and sets in any order | `RepartitionSpec`: old rooms, the room a place falls into, the places of a room, parents afterwards, rooms that meet, new links | a stage (`stg`) fixes the nodes, the links and which edges are those of the graph; one lemma per operation (remove, add, link), one per step of the function, `total` of C77 for the composition |
| C79 | `Label`: add_gt_room_label as a big-step relation that keeps the graph when an exception leaves the loop; areas and overlaps are parameters | `LabelSpec`: attributes with another label, the children of a room, the room of the house that overlaps most, rooms whose label fails | invariant over the rooms done (label written as decided from the given graph, the rest untouched; children are never rooms); Python's max over a strict weak order |
| C80 | `Collection`: LayerCollection as functions of the two files and the object (io.py); the bytes of a layer are a parameter (to_bson, from_bson) | `CollectionSpec`: Python slices, what each operation of a session should show, dictionaries numbered from 0 | save lays the bytes out one after the other (induction with the bytes before), open rebuilds the dictionary; induction over the session; loops end by counting keys |
| C81 | `Meshes`: named Mesh objects, the defaulted constructors and the two assignment operators member by member | `MeshesSpec`: programs, what a statement writes, an emptied mesh | frame lemma by induction over the program; a moved-from mesh is a new one with the same flags, so every object is `mesh_reachable` |

No property of the list is out of reach of the model; what is left out is listed next.

## 4. What is modelled and what is not

Modelled (all of it in `Model/`): `node_symbol`, `scene_graph_types`, `scene_graph_node`, `edge_container`,
`scene_graph_layer`, `dynamic_scene_graph_layer`, `dynamic_scene_graph` (construction, all node and edge calls, merges,
clone, update, reports, stale edges, mesh pointer), `base_layer`, `graph_utilities`, `layer_view`, `adjacency_matrix`,
`scene_graph_utilities` (getAncestorsOfLayer, computeAncestorBoundingBox), `scene_graph_logger`, `node_attributes`/`edge_attributes` (members,
equality, serialization of every class), `mesh`, `bounding_box`, `bounding_box_extraction`, `color`,
and `serialization/`: binary format and conversions, attribute registry and visitor, graph and mesh readers and writers
(binary and JSON), versioning (with the thread-local header and its scopes), file types, saving and loading by name; `zmq_interface`: the receive loop and `ZmqGraph`.

Simplified:

* allocation never fails; containers hold fewer than 2^64 elements; I/O failures other than a file that cannot be
  opened for writing and a process that is killed (C70) are outside the model;
* nlohmann::json: parsing what `dump` wrote gives the same tree, and dump fails exactly for strings that are not
  UTF-8 (documented behaviour; the library is not in /repo).  Texts that are not JSON are not represented;
* Eigen: the conversions between matrices and quaternions are modelled from the Eigen 3.3/3.4 source; other Eigen
  operations are the componentwise ones;
* `std::isalpha`/`std::toupper`: the "C" locale;
* `std::hash`, `std::unordered_*`: only as sets and maps;
* attribute classes registered by other programs: a registry is any finite assignment of names to the modelled classes.

Not modelled: sockets and message transport of zmq (including `ZMQ_CONFLATE`), the
trigonometric constructor of `BoundingBox` (yaw is taken as a cosine/sine pair), `Color::random` and the
named constants, printing of boxes, colours and attributes, the Python bindings other than their iterators and mesh matrices, and the Python and visualizer packages other than
`networkx.py` (C75; the fields of an attribute object are a parameter),
`mp3d.py:127-138,307-383` (C77; the statistics of verbose and the order in which the heap yields are not modelled), `mp3d.py:386-488` (C78; the rooms of the house file, the test of a position and the comparison of areas are parameters), `mp3d.py:491-556` (C79; areas, overlaps and the rooms of the house file are parameters; the parser of house files and the rest of mp3d.py are not modelled),
`torch_conversion.py:109-186,189-278` (C76; converters are parameters; the integer types of labels, ids and indices are not truncated; not modelled: the default converters, and the conversion with several node types),
`io.py` (C80; the bytes of a layer are a parameter, since the bindings of this commit have no to_bson and from_bson; errors of the operating system and records with members of other types are not modelled),
`binary_serializer.cpp` (not compiled), CMake.

## 5. Trusted base

* Coq 8.16.1: kernel and its virtual machine (`vm_compute` is used in examples and witnesses), and the definitions of the
  standard library, std++ and (for floats) Flocq used in statements.
* The reading of the C++ recorded in the comments of `Model/`; nothing links the model to the compiled code.
* No axioms of this development, no `Admitted`, no functors or module types, no disabled checks.
* What `Print Assumptions` lists (produced by `tools/assumptions.py`):

<!-- assumptions -->
**Closed under the global context** (no axioms), 412 theorems: all those of MANIFEST.json not listed below.

**`ClassicalDedekindReals.sig_forall_dec`, `ClassicalDedekindReals.sig_not_dec`, `Classical_Prop.classic`, `FunctionalExtensionality.functional_extensionality_dep`**, 15 theorems: `C49_blend_stays_between`, `C49_blend_ends`, `C49_gray`, `C49_quality`, `C49_spectrum`, `C49_ironbow`, `C49_hsv`, `C49_hls`, `C49_rainbow`, `C67_every_id_has_a_colour`, `C67_colours_fill_the_circle`, `C67_first_512_differ`, `C73_float_member`, `C73_double_member`, `C73_float_written`.

**`ClassicalDedekindReals.sig_forall_dec`, `ClassicalDedekindReals.sig_not_dec`, `FunctionalExtensionality.functional_extensionality_dep`**, 4 theorems: `C56_rotation_kept`, `C56_quaternion_unit`, `C56_read_rotation`, `C56_reflection_refuted`.

**`ClassicalDedekindReals.sig_forall_dec`, `FunctionalExtensionality.functional_extensionality_dep`**, 3 theorems: `C73_unsigned_member`, `C73_int_member`, `C73_ex`.

<!-- end -->

The axioms listed are those of Coq's standard library for real numbers (`ClassicalDedekindReals`,
`FunctionalExtensionality`) and `Classical_Prop.classic`, which Flocq's theorems and `Reals` use.
Loading the libraries also brings in, without any theorem depending on them, the parameters of
`Coq.ssr.ssrunder.Under_rel`, `Coq.Reals.Rdefinitions` and similar library modules that vcheck lists.

## 6. Deviations found

The `_refuted` theorems, and the conditions they led to in `properties.jsonl`.  The more important ones:

* `emplaceNode` of an existing node resets its status to NEW (C10); `emplaceNodeAtIndex` marks the wrong position and
  leaves the append position behind (C15), so that graphs that were loaded or cloned can misplace later poses (C25, C27, C41);
* edges between nodes of the same LayerId but different partitions (objects and agents share layer 2) are treated as
  siblings: `removeNode` leaves dangling siblings, `insertParentEdge` links invisibly (C18, C20), merging dynamic nodes
  throws or is undefined behaviour (C21, C24); merging can give a node two parents (C22);
* a prefix with a sub-index does not find its nodes (C16); dynamic `findNode` ignores the prefix (C24);
* stale flags survive removal and reinsertion (C07); `updateFromLayer` without edges keeps foreign siblings (C26);
* merged depth-limited components may overlap (C31); Laplacian rows with asymmetric weights (C32); layer 0 (C33);
* negative matrix dimensions are accepted when reading (C37), fixed arrays of the wrong length are (C38), Khronos
  timestamps are not saved (C39), empty dynamic layers and static timestamps are lost (C41, C54), nodes that moved
  layer and meshes that disappeared stay (C42), unknown attribute types are not skipped (C46);
* boxes: merging into an oriented box loses containment, rotated fits can lose points, binary32 rounding (C48), a yawed box
  drifts with every JSON save (C56); colours: blending equal colours can decrease a component (C49);
* `ZmqGraph` does not initialise `should_shutdown_` (C++17): if the memory happened to hold true, nothing is ever received; and while messages
  keep arriving faster than 1 ms apart, neither does the destructor return nor `hasChange()` become true (C74);
* the receiver returns a graph that is being updated: a data race (C50); a graph in JSON is read without a
  compatibility check, NaN weights cannot be read back (C54, C55); the logger does not count nodes with two parents (C58);
* mesh matrices lose alpha and wrap indices of 2^31 and more, `set_vertices` leaves faces dangling (C64); moving a mesh and back
  is not exact in single precision (C65); an edge of an unknown class, listed for a pair that is linked, leaves a null pointer (C66);
* colours of ids repeat although their hues do not, and no ids per revolution divide by zero (C67);
* a file cut just before its mesh loads without an error and without the mesh (C68).
* `load(path)` looks for the file before it adds the extension that `save(path)` added; `save` does not notice that the
  file could not be written; saving JSON empties the file before it finds out that the graph cannot be written (C70);
* in every loaded graph, appending a node to a dynamic layer with a node 0 is refused (C71);
* `expand_rooms` takes a place with several parents for one without a room and gives it another one (C77);
* `repartition_rooms` drops the rooms that no place falls into (C78);
* `add_gt_room_label` raises with its default arguments as soon as there is a room (`min_corner` does not exist in Python),
  and when it raises on a room without a counterpart, earlier rooms keep their new labels (C79);
* `LayerCollection.save` and reading need `to_bson` and `from_bson`, which the bindings do not have; the empty collection cannot be
  opened, a save that raises leaves the old record with the new bytes, and collections `run.1` and `run.2` share their files (C80);
* assigning a mesh changes its const members `has_colors` etc. (undefined in C++, taken as the write), and a mesh moved to itself is empty (C81).

## 7. Tests of the theorems

`seeded/LOG.jsonl` records the wrong programs tried: one definition of the model edited per entry, the whole development
rebuilt in a scratch copy, and the theorems (or lemmas below them) that no longer compile.  Mutants that survived led to
the tightened theorems named in the entry, or are marked equivalent.
