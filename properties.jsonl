{"id": "C01", "title": "NodeSymbol is a bijection between (category, index) pairs and node ids", "statement": "Building a NodeSymbol from a category character and an index below 2^56 and reading back category() and categoryId() returns the same pair; building one from any 64-bit NodeId and converting back returns that NodeId; hence two symbols are equal iff both components are equal. An index of 2^56 or more is silently reduced modulo 2^56.", "quantifier": "every 8-bit category, every index, every 64-bit NodeId", "why_tests_cant": "2^64 ids cannot be enumerated", "anchors": ["include/spark_dsg/node_symbol.h:NodeSymbol", "src/node_symbol.cpp"]}
{"id": "C02", "title": "LayerPrefix ids are recoverable and never collide across prefixes", "statement": "For every prefix and every node index below 2^32, the id made by makeId maps back to that prefix (fromId), that index (index) and matches() only that prefix; so distinct (prefix, index) pairs give distinct ids. Beyond 2^32 ids alias the ids of another prefix.", "quantifier": "every 32-bit prefix value and every index", "why_tests_cant": "2^64 combinations", "anchors": ["include/spark_dsg/scene_graph_types.h:LayerPrefix", "src/scene_graph_types.cpp"]}
{"id": "C03", "title": "Edges are undirected: every edge query is symmetric", "statement": "After any history of operations, hasEdge(u,v) = hasEdge(v,u), the edge record found for (u,v) is the one found for (v,u), and its endpoints are {u,v}. Edge keys compare equal iff they join the same pair, and operator< on them is a strict total order.", "quantifier": "every history of graph operations, every pair of node ids", "why_tests_cant": "unbounded histories", "anchors": ["include/spark_dsg/edge_container.h:EdgeKey", "src/dynamic_scene_graph.cpp:hasEdge,findEdge"]}
{"id": "C04", "title": "LayerKey comparison is coherent", "statement": "LayerKey equality is an equivalence; isParent is a strict order on keys; for valid keys exactly one of (a parent of b), (b parent of a), (same LayerId) holds.", "quantifier": "all layer keys", "why_tests_cant": "unbounded 64-bit layers and prefixes", "anchors": ["src/scene_graph_types.cpp:LayerKey"]}
{"id": "C05", "title": "An edge container behaves as a finite map that never overwrites on insert", "statement": "After any sequence of insert/remove/rewire/reset on an edge container, contains/find/size agree with an abstract finite map from unordered pairs to (source,target,attributes): insert keeps an existing edge, remove deletes exactly that pair, rewire moves the attributes.", "quantifier": "every sequence of container operations", "why_tests_cant": "unbounded sequences", "anchors": ["src/edge_container.cpp:EdgeContainer"]}
{"id": "C06", "title": "Edge change reporting is exact", "statement": "getNewEdges(clear) reports exactly the pairs inserted since they were last cleared and not removed since; getRemovedEdges(clear) reports exactly the pairs removed, not re-inserted and not yet cleared; no pair is listed twice in one report; after a clearing call a second call reports nothing; getStatus agrees with the reports.  On the whole graph: every pair getNewEdges lists is a present edge, an inserted edge is listed as new and a removed one as removed by the next report, and a clearing call leaves nothing to report.", "quantifier": "every history of insert/remove/query operations with any interleaving of clearing and non-clearing reports", "why_tests_cant": "unbounded histories", "anchors": ["src/edge_container.cpp:getNew,getRemoved"]}
{"id": "C07", "title": "Stale-edge sweep removes exactly the untouched edges", "statement": "After markEdgesAsStale followed by any set of edge lookups/updates, removeAllStaleEdges never throws, changes no node and no surviving edge, and: an edge that existed at marking time and throughout is removed iff no call since looked it up (findEdge/getEdge, setEdgeAttributes, addOrUpdateEdge); an edge that did not exist at marking time survives. (An edge removed and inserted again after marking keeps its old flag and is swept unless looked up: refuted as a stronger reading.)", "quantifier": "every graph state and every set of touched edges between mark and sweep", "why_tests_cant": "unbounded states and subsets", "anchors": ["src/edge_container.cpp:setStale,find", "src/dynamic_scene_graph.cpp:markEdgesAsStale,removeAllStaleEdges"]}
{"id": "C08", "title": "Layer adjacency is always consistent with its edges", "statement": "After any history of node/edge insertions, removals, rewirings and node merges on a layer: v is a sibling of u iff u is a sibling of v iff the layer has the edge (u,v); both ends of every edge are nodes of the layer; no self edge exists; no operation dereferences a missing node.", "quantifier": "every history of operations on a static layer with any arguments", "why_tests_cant": "unbounded histories", "anchors": ["src/scene_graph_layer.cpp"]}
{"id": "C09", "title": "Node status tracks existence", "statement": "After any history on a static layer, a node is present iff its status is NEW or VISIBLE; getNewNodes lists exactly the nodes with status NEW, after a clearing call a second one lists none; getRemovedNodes lists exactly the nodes with status DELETED or MERGED, and after a clearing call exactly the merged ones (which stay listed); each node is listed at most once per call; clearing changes no other status; reset forgets everything.  On the whole graph getNewNodes lists exactly the nodes whose status is NEW, each once, and a node just removed is listed by getRemovedNodes.", "quantifier": "every history of layer operations", "why_tests_cant": "unbounded histories", "anchors": ["src/scene_graph_layer.cpp:checkNode,getNewNodes,getRemovedNodes"]}
{"id": "C10", "title": "A duplicate node insertion does not change nodes or edges", "statement": "insertNode of a node whose id is already present returns false and leaves the layer, including every reported status, unchanged.  emplaceNode with such an id returns false and leaves nodes and edges unchanged, but sets that node's status to NEW again (so it is reported as new a second time) and no other status.", "quantifier": "every layer state and node id", "why_tests_cant": "unbounded states", "anchors": ["src/scene_graph_layer.cpp:emplaceNode"]}
{"id": "C11", "title": "Removing a node from a layer removes exactly it and its edges", "statement": "Layer removeNode(n) returns false and changes nothing if n is absent; otherwise afterwards n is absent, an edge (u,v) exists iff it existed and neither end is n, every other node keeps its attributes and its other siblings.", "quantifier": "every consistent layer state and node id", "why_tests_cant": "unbounded states", "anchors": ["src/scene_graph_layer.cpp:removeNode"]}
{"id": "C12", "title": "Merging two nodes of a layer moves all neighbours", "statement": "Layer mergeNodes(a,b) (a\u2260b both present): afterwards a is absent with status MERGED, and for every pair (u,v) the edge exists iff it existed without a, or one end is b and the other end was adjacent to a and is not b; attributes of every other node are unchanged.", "quantifier": "every consistent layer state and pair of ids", "why_tests_cant": "unbounded states", "anchors": ["src/scene_graph_layer.cpp:mergeNodes,rewireEdge"]}
{"id": "C13", "title": "Dynamic layer indexing: ids, positions and times agree", "statement": "For every history of emplaceNode/removeNode/edge operations on a dynamic layer: the k-th successful emplace gets id prefix.makeId(k); no two live nodes share a timestamp; numNodes equals the number of live nodes; hasNode, findNode and the node list agree; a removed index is never reused.", "quantifier": "every history of appends and removals", "why_tests_cant": "unbounded histories", "anchors": ["src/dynamic_scene_graph_layer.cpp:emplaceNode,removeNode,hasNode"]}
{"id": "C14", "title": "Removing an intermediate agent node keeps the odometry chain connected", "statement": "If a dynamic node has edges to both its immediate predecessor and successor, then after removeNode those two are adjacent; all its other edges are gone, and every edge not touching it is unchanged.", "quantifier": "every consistent dynamic layer and node", "why_tests_cant": "unbounded states", "anchors": ["src/dynamic_scene_graph_layer.cpp:removeNode"]}
{"id": "C15", "title": "Inserting dynamic nodes at an index: exact effect", "statement": "emplaceNodeAtIndex(time, index) (used by clone and by loading) refuses an index that is in use and otherwise adds exactly that node and changes no other slot and no edge; the number of nodes grows by one if no live node has that time. Any sequence of calls with different indices and different times on a new layer succeeds and leaves exactly these nodes. Deviations: a time already in use is accepted, and then numNodes is too small; the removal report gains exactly the indices from size+1 to index+1 when the vector had to grow: the padding shifted by one, so an id that never existed can be reported as removed.", "quantifier": "every sequence of emplaceNodeAtIndex calls", "why_tests_cant": "unbounded sequences", "anchors": ["src/dynamic_scene_graph_layer.cpp:emplaceNodeAtIndex"]}
{"id": "C16", "title": "Every known node is stored exactly once, in the layer the graph says", "statement": "After any history: hasNode(n) iff exactly one layer (static or dynamic) stores n, that layer is getLayerForNode(n), and getNode(n) returns a node with id n, that layer's id and the attributes last set.  (Dynamic layers are those whose prefix has sub-index 0; with another sub-index the node is added but getNode on it throws: refuted by example.)", "quantifier": "every history of graph operations", "why_tests_cant": "unbounded histories", "anchors": ["src/dynamic_scene_graph.cpp:node_lookup_,getNodePtr,emplaceNode,removeNode"]}
{"id": "C17", "title": "Parent/child/sibling links mirror the edges", "statement": "After any history: u lists v as child iff v lists u as parent iff the edge (u,v) exists and u's layer is above v's; u lists v as sibling iff v lists u as sibling iff the edge exists and both are on the same layer; every edge's endpoints exist; connections() of a node lists exactly the adjacent nodes, each once.", "quantifier": "every history of graph operations on static and dynamic layers", "why_tests_cant": "unbounded histories", "anchors": ["src/dynamic_scene_graph.cpp:addAncestry,removeAncestry,insertEdge,removeEdge,removeNode"]}
{"id": "C18", "title": "Graph removeNode leaves no trace", "statement": "After removeNode(n) returned true: hasNode(n) is false, no edge with endpoint n exists in any edge collection, no node lists n as parent, child or sibling, and every other node and every edge not touching n is unchanged (except the documented odometry reconnection), provided n has no edge to a node of another partition with the same LayerId (objects and agents share 2; such an edge is left dangling: refuted by example). On an unknown id it returns false and changes nothing.", "quantifier": "every reachable graph and node id", "why_tests_cant": "unbounded states", "anchors": ["src/dynamic_scene_graph.cpp:removeNode"]}
{"id": "C19", "title": "insertEdge and removeEdge change exactly one edge", "statement": "insertEdge(u,v,a) returns true iff both nodes exist, u\u2260v and no edge existed; then exactly that edge is added with those attributes and source/target. removeEdge(u,v) returns true iff the edge existed, and then exactly that edge disappears. In all other cases nothing changes.", "quantifier": "every reachable graph and all arguments", "why_tests_cant": "unbounded states", "anchors": ["src/dynamic_scene_graph.cpp:insertEdge,removeEdge"]}
{"id": "C20", "title": "insertParentEdge enforces a single parent", "statement": "When insertParentEdge(u,v) between nodes of different layers returns true, the child has exactly one parent, the given one; only the child's previous parent edges are removed; nothing else changes; it returns false, changing nothing, iff a node is missing or the edge exists. (The documented refusal for nodes of the same layer is refuted: it returns true and adds an edge that hasEdge and removeEdge cannot see; between nodes of equal LayerId in different partitions it drops all parents of the source.)", "quantifier": "every reachable graph and all arguments", "why_tests_cant": "unbounded states", "anchors": ["src/dynamic_scene_graph.cpp:insertParentEdge,dropAllParents", "include/spark_dsg/dynamic_scene_graph.h"]}
{"id": "C21", "title": "Graph mergeNodes redirects every connection", "statement": "mergeNodes(a,b) on nodes that do not share a dynamic layer, where a has no edge to another partition with the same LayerId, returns true iff both exist, differ, and share a layer; afterwards a is gone, and b's neighbours are the old neighbours of a and b (minus a,b themselves); edges not touching a are unchanged; no dangling edge or link to a remains. (Merging two nodes of a dynamic layer throws or is undefined behaviour: shown by examples.)", "quantifier": "every reachable graph and all arguments meeting the conditions", "why_tests_cant": "unbounded states", "anchors": ["src/dynamic_scene_graph.cpp:mergeNodes,rewireInterlayerEdge"]}
{"id": "C22", "title": "At most one parent per node is preserved", "statement": "If every node has at most one parent and only insertParentEdge is used to add inter-layer edges, then every node keeps at most one parent under removals and under merges of nodes that do not have two different parents (otherwise a merge gives two: refuted by example); hasParent/getParent report the parent exactly if it is unique, hasChildren and hasSiblings agree with the edges.", "quantifier": "every history", "why_tests_cant": "unbounded histories", "anchors": ["src/dynamic_scene_graph.cpp:insertParentEdge,mergeNodes"]}
{"id": "C23", "title": "Counts equal contents", "statement": "numNodes() equals the number of distinct known node ids and numEdges() the number of distinct pairs (u,v) with hasEdge(u,v), after any history; numLayers counts each LayerId once, numDynamicLayers and numDynamicLayersOfType the dynamic layers, and numNodes(include_mesh) adds the mesh vertices.", "quantifier": "every history", "why_tests_cant": "unbounded histories", "anchors": ["src/dynamic_scene_graph.cpp:numNodes,numEdges,numLayers"]}
{"id": "C24", "title": "No API call crashes on a valid graph", "statement": "On every reachable graph, every modifying operation whose arguments meet the stated conditions (below 2^32 dynamic nodes per layer and append position at the end, dynamic prefixes with sub-index 0, insertParentEdge between different LayerIds, removal and merging of nodes without edges to another partition of the same LayerId, no merging of dynamic nodes) completes and leaves a consistent graph, except that findEdge and setEdgeAttributes throw for unknown nodes; no node or position query dereferences a null node or reads out of range. Queries agree with each other: hasEdge/findEdge/getEdge, the layer queries and the by-index queries of dynamic layers; getNode, getEdge and getPosition throw for what is missing. checkNode of a dynamic layer answers NONEXISTENT exactly for ids of other prefixes, NEW or VISIBLE exactly for its nodes, and DELETED or an exception for the other ids of its prefix. (Deviations shown: checkNode throws for an index never used; merging two dynamic nodes can be undefined behaviour; findNode of a dynamic layer ignores the prefix of the id.)", "quantifier": "every reachable graph, every operation, all arguments", "why_tests_cant": "unbounded histories and arguments", "anchors": ["src/dynamic_scene_graph.cpp", "src/dynamic_scene_graph_layer.cpp"]}
{"id": "C25", "title": "A clone is an equal and independent graph", "statement": "clone() never fails on a graph built through the API and yields a graph with the same layers and mesh, nodes (ids, layers, attributes, and timestamps of dynamic nodes) and edges (endpoints and attributes), and the same later behaviour: applying the same operations, other than appending to a dynamic layer, to both yields the same answers and equal graphs. (Refuted for appending to a dynamic layer and for timestamps of static nodes.)  Cloning a single layer with a filter keeps exactly the selected nodes with their status and the edges between them.", "quantifier": "every reachable graph and every later operation sequence", "why_tests_cant": "unbounded states", "anchors": ["src/dynamic_scene_graph.cpp:clone"]}
{"id": "C26", "title": "updateFromLayer merges a layer without losing or duplicating nodes", "statement": "updateFromLayer(other, edges) with a stand-alone layer whose nodes are not in another layer of the graph, and an edge list that covers other's edges at new nodes (other's own edges do), moves every node of the other layer into the graph: existing nodes keep their links and their time and get the new attributes, new nodes are added with status NEW, listed edges between nodes of the layer are added or updated, nothing else changes, the other layer is left empty and the graph stays consistent. Without an edge list, or with a node held by another layer, consistency is lost (refuted by example).", "quantifier": "every reachable graph, every other layer, every edge list", "why_tests_cant": "unbounded states", "anchors": ["src/dynamic_scene_graph.cpp:updateFromLayer"]}
{"id": "C27", "title": "mergeGraph brings in all nodes and edges of the other graph", "statement": "mergeGraph(other, config), when common nodes sit in the same layers, common dynamic layers have no holes and append at their end, and nodes other reports as removed are really gone, succeeds and keeps the graph consistent. Afterwards: every node other's shared layers report as removed is gone; every other node of a static layer of other that the graph has exists (unless it had been merged away), new ones with other's attributes, known ones keeping layer and time and taking over other's attributes exactly when the layer is updated and (update_archived or the node is active); every node of other's dynamic layers exists, known ones with their old position, new ones shifted by the drift of the last common pose; no other node changes. An edge disappears only with a removed node, as a removed edge, or by enforced re-parenting; every new edge is one of other's; every edge of other between nodes of the result arrives unless other itself gives the child two parents. Merging the same graph again changes neither nodes nor edges. other keeps its nodes and edges. (Refuted: taking over attributes of archived nodes under the default configuration; merging into a dynamic layer with removed nodes (undefined behaviour); nodes that changed layer.)", "quantifier": "every pair of reachable graphs, every merge configuration, every vector addition", "why_tests_cant": "unbounded states", "anchors": ["src/dynamic_scene_graph.cpp:mergeGraph", "src/scene_graph_layer.cpp:mergeLayer", "src/dynamic_scene_graph_layer.cpp:mergeLayer"]}
{"id": "C28", "title": "Breadth-first search visits exactly the reachable nodes, once each", "statement": "breadthFirstSearch over a layer calls the visitor exactly once on each node reachable from the root through valid edges/nodes and on no other node, provided every sibling of a node of the layer is itself in that layer (always so for a stand-alone layer; an edge between an object and an agent, which share LayerId 2, breaks it and the search throws). If one of several roots is missing no node is visited.", "quantifier": "every finite graph, root and filter", "why_tests_cant": "unbounded graphs", "anchors": ["include/spark_dsg/graph_utilities.h:breadthFirstSearch"]}
{"id": "C29", "title": "Neighbourhood queries return exactly the nodes within the hop limit", "statement": "getNeighborhood(n,k) equals the set of nodes at graph distance at most k from n (from any of the roots in the multi-root version, empty if a root is missing), under the condition of C28.", "quantifier": "every graph, roots, hop count", "why_tests_cant": "unbounded graphs", "anchors": ["include/spark_dsg/graph_utilities.h:breadthFirstSearch", "src/scene_graph_layer.cpp:getNeighborhood"]}
{"id": "C30", "title": "Connected components partition the nodes", "statement": "getConnectedComponents returns disjoint components covering every node (every node that passes the filter; or every node connected to a root), with two nodes together iff a path connects them (through nodes and edges that pass; or through the given roots only). The condition is that of C28: every sibling of a node of the layer is in the layer.", "quantifier": "every finite graph", "why_tests_cant": "unbounded graphs", "anchors": ["include/spark_dsg/graph_utilities.h:getConnectedComponents"]}
{"id": "C31", "title": "Overlapping depth-limited components are merged without losing a node", "statement": "The depth-limited getConnectedComponents covers, under the condition of C28, exactly the nodes within max_depth hops of a root; merging keeps every given component inside one result, adds no node, and yields pairwise disjoint components whenever sharing a node is transitive on the given components (in general it does not: the single pass can leave overlapping results).", "quantifier": "every list of overlapping components", "why_tests_cant": "unbounded lists", "anchors": ["include/spark_dsg/graph_utilities.h:getMergedComponents"]}
{"id": "C32", "title": "Adjacency and Laplacian matrices are faithful", "statement": "For a node ordering that names only nodes of the layer and numbers them 0..n-1 without repetition: the dense adjacency matrix is symmetric with zero diagonal and its (i,j) entry is the edge weight (called with the larger id first) if the nodes indexed i,j are adjacent and zero otherwise; the sparse one has weight(u,v) at (u,v); for a symmetric weight function dense and sparse agree and every Laplacian row sums to zero in exact arithmetic (for an asymmetric one they differ and dense rows need not sum to zero).", "quantifier": "every layer and weight function", "why_tests_cant": "unbounded layers", "anchors": ["src/adjacency_matrix.cpp", "include/spark_dsg/adjacency_matrix.h"]}
{"id": "C33", "title": "getAncestorsOfLayer calls back exactly the nodes of a layer below a node", "statement": "getAncestorsOfLayer(graph, n, child_layer, callback) terminates and, for every layer id of at least 1, calls back exactly the nodes of child_layer that lie below n through a chain of parent links, each once if no node has two parents; for layer 0 every callback is such a node but nodes below a layer-1 node are missed (the layer id is compared with the key converted to bool).", "quantifier": "every graph and arguments", "why_tests_cant": "unbounded graphs", "anchors": ["src/scene_graph_utilities.cpp:getAncestorsOfLayer"]}
{"id": "C34", "title": "Layer views show exactly the selected nodes", "statement": "Iterating a LayerView visits exactly the nodes of the layer for which the filter holds, each once, in ascending order of id.", "quantifier": "every layer and filter", "why_tests_cant": "unbounded layers", "anchors": ["src/layer_view.cpp", "include/spark_dsg/layer_view.h"]}
{"id": "C35", "title": "Binary primitives round-trip and are self-delimiting", "statement": "Reading back any written integer, boolean, float, double or string, followed by arbitrary other bytes, returns exactly the value written and leaves the reader at the first following byte. The bytes are one mark telling the type (the MessagePack ones: 0xcc-0xd3 integers, 0xca/0xcb float and double, 0xc2/0xc3 booleans, 0xdd and a 4-byte length for strings and arrays, 0xc0 an absent optional, 0x00 and 0x01 around dynamic arrays), then the value least significant byte first; reading a number where another mark stands throws.", "quantifier": "every value, every suffix", "why_tests_cant": "infinite domain", "anchors": ["include/spark_dsg/serialization/binary_serialization.h", "src/serialization/binary_serialization.cpp"]}
{"id": "C36", "title": "Binary containers round-trip", "statement": "Sequences, sets, maps, optionals and Eigen matrices of any element type that itself round-trips round-trip when read into a freshly constructed destination, including nested and empty ones, up to 2^32-1 elements; longer ones are rejected on writing. (Reading an absent optional into a destination that already holds a value keeps the old value.)", "quantifier": "every container value", "why_tests_cant": "infinite domain", "anchors": ["include/spark_dsg/serialization/binary_serialization.h", "include/spark_dsg/serialization/binary_conversions.h"]}
{"id": "C37", "title": "The binary reader never reads outside its buffer", "statement": "On any byte sequence whatsoever no read of any serialisable type (attributes, meshes, headers, whole graphs) touches a byte outside the buffer, loops forever or leaves the buffer; types without Eigen matrices either return a value or throw. (Matrix dimensions that are negative, overflow or contradict the static shape reach Eigen's resize unchecked.)", "quantifier": "every byte string and every read sequence", "why_tests_cant": "infinite domain", "anchors": ["src/serialization/binary_serialization.cpp:BinaryDeserializer"]}
{"id": "C38", "title": "Matrices of the wrong declared length are rejected", "statement": "A matrix is returned only if its declared array length equals its number of entries plus two. (For std::array, quaternions, boxes, faces, node and edge records the declared length is not checked at all: checkFixedArrayLength compares the expected length with itself, so a wrong length silently desynchronises the stream.)", "quantifier": "every buffer", "why_tests_cant": "infinite domain", "anchors": ["src/serialization/binary_serialization.cpp:checkFixedArrayLength"]}
{"id": "C39", "title": "Node and edge attributes survive a save/load", "statement": "For every attribute type, writing succeeds when all values fit the format, and reading the written bytes consumes exactly them and yields the identical attributes, except for three members of 2D places and the members Khronos objects inherit from ObjectNodeAttributes, which come back default-constructed; the result is equal (operator==) to the original unless it holds a NaN outside the position or a Khronos object used those members.", "quantifier": "every attribute value of every registered type", "why_tests_cant": "infinite domain", "anchors": ["src/node_attributes.cpp:serialization_info,is_equal", "src/edge_attributes.cpp", "include/spark_dsg/serialization/attribute_serialization.h"]}
{"id": "C40", "title": "File headers round-trip and gate compatibility", "statement": "deserialize(serialize(h)) = h with the exact offset; data that does not start with the identifier is reported as headerless or, if it cannot be read at all, throws; files older than the minimum version are rejected; version comparison is a strict total order.", "quantifier": "every header and every byte string", "why_tests_cant": "infinite domain", "anchors": ["src/serialization/versioning.cpp"]}
{"id": "C41", "title": "A saved graph loads back equal", "statement": "For every graph whose static nodes have no timestamp, whose dynamic nodes are on layers with a static LayerId of the graph and from which no dynamic node was removed (each condition is needed: the refuted variants show a lost layer, a node changing layer, and a null dereference), readGraph(writeGraph(g)) -- and loading a saved file -- yields the same layers, nodes, layer membership, timestamps, attributes (as far as the attribute codecs keep them, C39), edges with direction, and the mesh if included; writer and reader may have registered the attribute classes in different orders.", "quantifier": "every reachable graph meeting the conditions, every pair of programs with the library's attribute classes", "why_tests_cant": "unbounded graphs", "anchors": ["src/serialization/graph_binary_serialization.cpp:writeGraph,readGraph"]}
{"id": "C42", "title": "Applying an update buffer makes the receiver equal to the sender", "statement": "After updateGraph(g, writeGraph(h)), g has exactly h's nodes, layers, timestamps, node attributes, edges and edge attributes (an edge both had keeps g's direction), provided g and h agree on layer and time of the nodes they share, no two different nodes of them share a dynamic layer and a time, and no node to be removed has an edge to another layer with the same LayerId.  g's mesh becomes h's if h has one and it was included, else it is kept.  If the layer ids differ, g is reset first and ends up equal to h in every respect.", "quantifier": "every pair of reachable graphs meeting the conditions", "why_tests_cant": "unbounded graphs", "anchors": ["src/serialization/graph_binary_serialization.cpp:updateGraph"]}
{"id": "C43", "title": "Mesh vertex/face erasure keeps the mesh valid", "statement": "For every mesh built through the interface and every index set no larger than the mesh (a larger one throws and changes nothing): eraseVertices(S) keeps exactly the vertices not in S in order with all their per-vertex data, keeps exactly the faces all of whose corners remain, renumbered to the same vertices; eraseFaces(S) keeps exactly the faces not in S, and with vertex update removes exactly the vertices no remaining face uses.", "quantifier": "every mesh and index set", "why_tests_cant": "unbounded meshes", "anchors": ["src/mesh.cpp:eraseVertices,eraseFaces"]}
{"id": "C44", "title": "Mesh accessors respect their bounds and configuration", "statement": "resizeVertices keeps all enabled per-vertex arrays at the same length; writing vertex i then reading it returns the written value and no other vertex changes; out-of-range access throws; clear() leaves an empty mesh of the same configuration.", "quantifier": "every mesh and index", "why_tests_cant": "unbounded meshes", "anchors": ["src/mesh.cpp"]}
{"id": "C45", "title": "Meshes round-trip through the binary format", "statement": "Every mesh with fewer than 2^32 vertices and faces is written, and loading it yields the identical mesh (configuration, vertices, faces, colours, timestamps, first-seen stamps, labels), consuming exactly its bytes; it is equal by operator== if no coordinate is a NaN.", "quantifier": "every mesh", "why_tests_cant": "unbounded meshes", "anchors": ["src/serialization/mesh_serialization.cpp"]}
{"id": "C46", "title": "Attribute type names are resolved independently of registration order", "statement": "Reading a graph written by a program that registered its attribute types in a different order maps each node to the attribute type with the same name; an unknown name yields no attributes rather than another type. (Holds for up to 256 registered types; with more, ids wrap and one type silently replaces another. The fields of an unknown type are not skipped, so the rest of such a file is unreadable.)", "quantifier": "every pair of registries and every name list", "why_tests_cant": "unbounded", "anchors": ["include/spark_dsg/serialization/attribute_registry.h"]}
{"id": "C47", "title": "File type resolution is deterministic and total", "statement": "A path whose file name has the extension .json or .bson is JSON, .sparkdsg is binary, no extension becomes .sparkdsg, anything else is rejected; if there is a file name, resolving the resolved path gives the same result.", "quantifier": "every path", "why_tests_cant": "infinite domain", "anchors": ["src/serialization/file_io.cpp:identifyFileType,verifyFileExtension"]}
{"id": "C48", "title": "Bounding boxes mean sets of points", "statement": "In exact arithmetic: contains(p) holds exactly for the points of the box (frames, corners and volume agree); merging any proper box into an axis-aligned box gives the smallest axis-aligned box containing both; merging with an invalid box keeps or copies the other; fitting an axis-aligned box to points gives the smallest one; intersects and IoU of axis-aligned boxes are symmetric and agree with the common points, and IoU lies in [0,1]; equality compares all fields. Deviations shown: merging into an oriented box throws away containment, a flat fit is invalid, rotation-aligned fits/merges can lose a corner, and in binary32 corners, merges and IoU can miss by rounding.", "quantifier": "every pair of boxes and every list of points", "why_tests_cant": "infinite domain", "anchors": ["src/bounding_box.cpp", "src/bounding_box_extraction.cpp"]}
{"id": "C49", "title": "Colours: ordering, hash, blending and colour maps are sound", "statement": "operator< is a strict total order compatible with ==; the hash is equal only for equal colours; blending at a weight <= 0 / >= 1 returns the first / second colour, and for every weight that is not NaN gives a colour whose components lie in [min-1, max] of the two and within 1.001 of the linear interpolation (they can leave [min,max], and NaN is undefined behaviour: both shown); gray, quality, spectrum, ironbow, fromHSV, fromHLS and rainbow accept every value that is not NaN, return their documented end colours and follow the usual hue circle to within one step.", "quantifier": "all pairs of colours, all weights and all values of float", "why_tests_cant": "2^64 pairs and 2^32 weights", "anchors": ["src/color.cpp", "include/spark_dsg/color.h"]}
{"id": "C50", "title": "The zmq receiver shows the latest graph and never loses a change", "statement": "In every interleaving of the receive thread and a user thread: the critical sections exclude each other and the threads do not deadlock; hasChange() is true exactly if the receive loop announced something since the last graph() call; when the loop has settled and hasChange() is false, some graph() call has returned everything received; graph() returns a copy of the graph made of all messages taken over so far, so that for graphs sent one after the other it shows the last one taken over. Shown as deviations: a message arriving during graph() is a data race (the copied graph is the one being updated), hasChange() can lag behind a received message or be true for one already returned, and an unreadable message (every message cut short, but for one cut exactly before its mesh) ends the process.", "quantifier": "every interleaving and message history", "why_tests_cant": "schedules cannot be enumerated", "anchors": ["src/zmq_interface.cpp:ZmqGraph", "src/zmq_interface.cpp:ZmqReceiver"]}
{"id": "C51", "title": "The whole graph behaves as an abstract labelled graph", "statement": "Every history of allowed calls on a new graph returns exactly the answers of an abstract graph (a finite map from node ids to layer, time and attributes and a finite map from unordered pairs to edges), and at the end holds exactly the nodes and edges of that abstract graph.", "quantifier": "every list of layer ids and every history of allowed calls", "why_tests_cant": "unbounded histories", "anchors": ["src/dynamic_scene_graph.cpp", "include/spark_dsg/dynamic_scene_graph.h"]}
{"id": "C52", "title": "Attribute equality compares exactly the documented members", "statement": "For node attributes a == b holds iff b's class is a's class or derives from it, no member of a that a's class compares is NaN (the position excepted, where two NaNs count as equal), and all members a's class compares are equal, +0 and -0 being the same: everything except the semantic probabilities of a room, the index limits and need_finish_merge of a 2D place, the trajectory timestamps of a Khronos object, the extent of an invalid box and the rotation of an axis-aligned one. Within one class it is symmetric and transitive, and reflexive on NaN-free values; across classes it is not symmetric (refuted). Edge attributes compare the weighted flag and the weight.", "quantifier": "every pair of attribute values of every class", "why_tests_cant": "infinite domain", "anchors": ["src/node_attributes.cpp:is_equal", "include/spark_dsg/node_attributes.h:operator==", "src/edge_attributes.cpp:operator==", "src/bounding_box.cpp:operator==", "src/mesh.cpp:operator=="]}
{"id": "C53", "title": "Files of older versions are read as intended", "statement": "Files of versions 1.0.2 and 1.0.3 load (older ones are rejected), and serialized graphs of any version before 1.0.4 are read, with the layers, nodes, timestamps and edges they were written with. Attributes come back as written except for what the old format did not have: nodes are not predicted; up to 1.0.2 colours become opaque and a bounding box gets the width its two corners are apart. Before 1.0.2 the file has no attribute class names, so this needs the class order of the program that wrote it.", "quantifier": "every graph the format can hold, every old version, every position in a buffer", "why_tests_cant": "infinite domain; no old files are kept", "anchors": ["src/serialization/attribute_serialization.cpp", "src/serialization/binary_conversions.cpp", "src/serialization/graph_binary_serialization.cpp", "src/serialization/versioning.cpp", "src/node_attributes.cpp:serialization_info"]}
{"id": "C54", "title": "Graphs round-trip through JSON", "statement": "Every graph whose ids fit, whose names are UTF-8, whose scalar numbers are finite and whose static nodes have no timestamp is written as JSON, and every program with its attribute classes reads the text as a graph with the same layers, nodes, timestamps and edges, and the same mesh if it was included. Attributes come back unchanged except that coefficients which are not finite become NaN, an INVALID box becomes the default box, the rotation of a box goes through a quaternion (C56), and members no format stores (C39) are default. Shown as deviations: a static node with a timestamp comes back dynamic, a NaN weight gives a text nobody can read, a name that is not UTF-8 makes writing throw.", "quantifier": "every graph JSON can hold, every registration order", "why_tests_cant": "infinite domain", "anchors": ["src/serialization/graph_json_serialization.cpp", "src/serialization/json_conversions.cpp", "include/spark_dsg/serialization/json_conversions.h", "src/serialization/mesh_serialization.cpp"]}
{"id": "C55", "title": "JSON readers accept objects by member name", "statement": "The object of each attribute class has exactly its documented members; other members are ignored, missing members keep their default, a missing type or a node of a class the reader does not have makes reading throw, and so do a weight that is not finite and a vector or fixed-size matrix with another number of coefficients; anything but an array where a list is expected throws; a bounding box whose type is not one of the names AABB, OBB and RAABB reads as an invalid one; an edge of an unknown class gets default attributes. Colours may be arrays of three (opaque) or four numbers or objects with or without alpha. JSON files are, unlike binary ones, read without any check of project or version (shown).", "quantifier": "every JSON object and every registry", "why_tests_cant": "infinite domain", "anchors": ["include/spark_dsg/serialization/attribute_serialization.h", "src/serialization/graph_json_serialization.cpp", "include/spark_dsg/serialization/json_conversions.h"]}
{"id": "C56", "title": "The orientation of a bounding box survives JSON", "statement": "In exact arithmetic every rotation matrix comes back unchanged from its quaternion, the quaternion written is a unit quaternion, and every unit quaternion is read as a rotation. In floats the identity, half turns about the axes and cyclic permutations of the axes are exact. Deviations: a matrix that reflects is not kept, and in floats a quarter turn about the vertical axis drifts a little with every save.", "quantifier": "every rotation matrix and unit quaternion", "why_tests_cant": "continuous domain", "anchors": ["src/serialization/json_conversions.cpp:BoundingBox"]}
{"id": "C57", "title": "Ids, prefixes and layers have unambiguous texts", "statement": "Different 64-bit node ids have different labels (letter(index) if the category is a letter, the decimal id otherwise), a displayed list of ids determines the list, and different prefixes have different texts. The literal x123 gives the id of category x and index 123 for every character and every index below 2^56, and throws for a text without a number or a number of 2^64 or more. Layer names and ids convert as tabulated, regardless of letter case; converting the name of a layer back gives the layer, or UNKNOWN for a layer without name. Deviations shown: a label is not accepted as a literal, text after the number is ignored, a minus sign is accepted, and an index of 2^56 or more wraps.", "quantifier": "every id, list of ids, prefix, text and layer id", "why_tests_cant": "2^64 ids and unboundedly many texts", "anchors": ["src/node_symbol.cpp:operator<<", "include/spark_dsg/node_symbol.h:operator\"\" _id,displayNodeSymbolContainer", "src/scene_graph_types.cpp:LayerPrefix::str,LayerIdToString,StringToLayerId"]}
{"id": "C58", "title": "The graph logger writes the true counts of every logged layer", "statement": "If no two layers log under one name, logging never fails, and after any series of logged graphs the file of a named static layer holds the header, one row for the first graph and one row for every later graph in which the layer has nodes, and nothing else; each row holds the numbers of nodes in the layer, of its nodes marked removed and merged, of its nodes with exactly one parent and with children, and of the edges within the layer. Rows can be read back, and files of other layers are untouched. Deviations shown: nodes with two parents are not counted as having parents, layers of the same name overwrite each other's rows, a layer named after the first call gets no header, and naming a layer twice keeps the first name.", "quantifier": "every graph, every setting of the logger and every series of calls", "why_tests_cant": "unbounded series of graphs", "anchors": ["src/scene_graph_logger.cpp", "include/spark_dsg/scene_graph_logger.h"]}
{"id": "C59", "title": "JSON documents of older versions are read as intended", "statement": "From a document in the form any version before 1.0.4 wrote (1.0.0 if it has no header), the program reads the layers, nodes, timestamps, edges and mesh it was written for. Attributes come back as from a document of today (C54) except for what the old form did not have: nodes are not predicted; up to 1.0.2 colours (arrays of three) become opaque and a valid bounding box gets the width its corners are apart. A mesh of a version up to 1.0.1 is read from its coloured vertices (opaque, no timestamps or labels); later ones as today.", "quantifier": "every graph JSON can hold, every old version, every choice of box corners", "why_tests_cant": "infinite domain; no old documents are kept", "anchors": ["src/node_attributes.cpp:serialization_info", "src/serialization/json_conversions.cpp", "src/serialization/mesh_serialization.cpp:deserializeMeshLegacy,deserializeFromJson", "src/serialization/graph_json_serialization.cpp"]}
{"id": "C60", "title": "What loads from a JSON document is what it lists", "statement": "For every JSON document: if it is read as a graph, every entry could be read and the graph has exactly the listed layers, nodes (id, layer, time, attributes), edges and mesh; no id and no pair of nodes is listed twice, every static node has a listed layer and every edge joins two different listed nodes. Conversely every such document is read, and one with a duplicate, an unlisted layer, an edge without its nodes or no layers throws. (Provided timestamped nodes have ids whose prefix is one character, and no two nodes of one dynamic layer have the same time.)", "quantifier": "every JSON value", "why_tests_cant": "infinite domain", "anchors": ["src/serialization/graph_json_serialization.cpp:read_node_from_json,read_edge_from_json,readGraph"]}
{"id": "C61", "title": "Python loops visit exactly the nodes, edges and layers of a graph", "statement": "A Python loop over graph.nodes, a layer's nodes, graph.edges, the edges of a (static or dynamic) layer, the edges between layers, the layers or the dynamic layers sees each of them exactly once, nodes in ascending order of layer and id, and then stops for good. graph.nodes and graph.edges mean the static layers only: a node or an edge of a dynamic layer is not visited (shown). A loop over the nodes of a dynamic layer sees each of its nodes once, in order of index, and stops - provided the memory behind the last slot can be read: the iterator reads one slot past the end, so that the loop is otherwise undefined behaviour (shown).", "quantifier": "every graph any history of allowed calls can produce", "why_tests_cant": "unbounded histories; the read past the end has no visible effect in most runs", "anchors": ["python/bindings/scene_graph_iterators.h:NodeIter,EdgeIter,DynamicNodeIter,GlobalNodeIter,GlobalEdgeIter,LayerIter,DynamicLayerIter"]}
{"id": "C62", "title": "Boxes are fitted around exactly the nodes below a node, or the chosen vertices of a mesh", "statement": "computeAncestorBoundingBox with type AABB gives the smallest axis-aligned box around the positions of the nodes of a layer (id at least 1) below the given node; the box is valid exactly if these positions differ along every axis. It never fails, whatever the type: without such nodes the result is the invalid default box. A box around a mesh, or around the vertices at chosen indices, is the smallest one around those vertices in the same way; an index out of range throws. Deviation shown: for type OBB the result is always the invalid default box. (Exact arithmetic; the rotated type is covered by C48.)", "quantifier": "every graph any history of allowed calls can produce, every mesh, every choice of indices", "why_tests_cant": "infinite domain", "anchors": ["src/scene_graph_utilities.cpp:computeAncestorBoundingBox,NodeAdaptor", "src/bounding_box.cpp:MeshAdaptor"]}
{"id": "C63", "title": "A mirror kept by the change reports equals the graph", "statement": "Start from any graph and let a client hold the set of its nodes and the set of its edges. After any series of allowed calls that neither clears the reports nor the graph, dropping what getRemovedNodes / getRemovedEdges report and adding what getNewNodes / getNewEdges report gives exactly the nodes and edges of the graph; this stays true over any number of rounds in which the reports are cleared after being read, provided no node of the graph is reported as removed at the start of a round. Clearing leaves only merged-away nodes in the removed report. Deviations shown: an id that was merged away and re-created in another layer is reported as removed for ever, and emplacePrevDynamicNode reports the slots it skips as removed, with ids that may belong to live nodes of another dynamic layer with the same prefix (excluded from the theorem).", "quantifier": "every graph any history of allowed calls can produce, every series of calls, any number of rounds", "why_tests_cant": "unbounded histories", "anchors": ["src/dynamic_scene_graph.cpp:getNewNodes,getRemovedNodes,getNewEdges,getRemovedEdges", "src/scene_graph_layer.cpp:getNewNodes,getRemovedNodes", "src/dynamic_scene_graph_layer.cpp:getNewNodes,getRemovedNodes,emplaceNodeAtIndex", "src/edge_container.cpp:getNew,getRemoved"]}
{"id": "C64", "title": "A mesh as matrices", "statement": "The Python bindings get_vertices / set_vertices / get_faces / set_faces: get_vertices of any mesh gives a 6-row matrix with one column per vertex, holding the position and the colour channels divided by 255 (zeros without colours); set_vertices refuses a matrix without six rows, otherwise the mesh has exactly those vertices, in order, the other stored values of surviving vertices are kept and those of new vertices are zero, and the faces are untouched; writing back what was read changes nothing except that colours become opaque; faces survive reading and writing when the indices are below 2^31. Deviations shown: alpha is lost, larger indices wrap around, faces are not adapted when vertices disappear, and a colour entry outside of [0, 256/255) is undefined behaviour.", "quantifier": "every mesh any history of calls can produce, every matrix", "why_tests_cant": "unbounded meshes; all doubles", "anchors": ["python/bindings/spark_dsg_bindings.cpp:getEigenVertices,setEigenVertices,getEigenFaces,setEigenFaces", "src/mesh.cpp:resizeVertices,resizeFaces"]}
{"id": "C65", "title": "Moving a mesh", "statement": "Mesh::transform replaces every position by its image under the motion and changes nothing else. With exact arithmetic and a rotation, distances are kept and the inverse motion restores the mesh; with single precision it need not (deviation shown).", "quantifier": "every mesh, every rotation matrix and translation", "why_tests_cant": "real-number geometry over all inputs", "anchors": ["src/mesh.cpp:transform"]}
{"id": "C66", "title": "What loads from binary bytes is what they list", "statement": "Whatever bytes readGraph or updateGraph accept, they are the entries of a message: layer ids, node entries, edge entries and a mesh, readable without a graph. The graph then has exactly the listed nodes and edges: a node it had stays in its layer at its time, a new one is where its first entry says, both have the attributes of the last entry; entries for layers that do not exist or of attribute classes that are not known are skipped; edges are the listed pairs of different nodes of the graph, with the attributes listed last and, in a graph just loaded, the direction listed first; nodes and edges that are not listed are gone; the mesh is the listed one, else the old one. Conditions: layer ids without the reserved one, dynamic nodes with distinct times and supported prefixes (C08), no node to be removed with an edge to another layer of its LayerId (C18). The only failure of well-formed bytes is an edge of an unknown class listed for a pair that already is linked (deviation shown).", "quantifier": "every byte sequence, every reachable graph, every program", "why_tests_cant": "the bytes come from other programs: tests cannot list them", "anchors": ["src/serialization/graph_binary_serialization.cpp:updateGraph,readGraph,parseNode,parseEdge", "src/dynamic_scene_graph.cpp:addOrUpdateNode,addOrUpdateEdge,removeAllStaleEdges"]}
{"id": "C67", "title": "Colours of ids fill the hue circle without repeating a hue", "statement": "rainbowId(id, n) with n > 0 gives every id a fully saturated colour of the hue circle. Without rounding, the hues are in [0, 1), no two ids have the same hue, and for every e the first n*2^e ids have exactly the hues j/(n*2^e), each once, the first n in order. For a power of two n (16 by default) and n*2^e up to 2^23 the colours returned in single precision show exactly these hues to within one step of 255, and the colours of the first 512 ids all differ (n up to 512). Deviations shown: colours have 8 bits, so they do repeat (ids 341 and 677 for n = 16), and n = 0 divides by zero.", "quantifier": "every id below 2^47, every number of ids per revolution", "why_tests_cant": "infinite domain", "anchors": ["src/color.cpp:exponentialOffsetId,rainbowId"]}
{"id": "C68", "title": "Files and messages that were cut are refused", "statement": "If a value, attributes, a mesh, a header, a graph or an update are read from bytes, then reading the same bytes cut anywhere before the last byte that was used throws; nothing is made up and nothing is read past the end. The one exception, shown as a deviation, is a graph cut exactly before the flag of its mesh: it is read completely but for the mesh (none when loading, the receiver's own or none when updating). In particular every beginning of a saved file throws, except the one that lacks just the mesh part, which loads all layers, nodes, attributes and edges that were saved.", "quantifier": "every byte sequence that can be read, every saved file, every place where it is cut", "why_tests_cant": "every crash point of a writer, every size of file", "anchors": ["src/serialization/binary_serialization.cpp", "src/serialization/graph_binary_serialization.cpp:readGraph,updateGraph", "src/serialization/file_io.cpp:loadDsgBinary", "src/serialization/versioning.cpp:deserializeFromBinary"]}
{"id": "C69", "title": "What was loaded before, or is being loaded elsewhere, has no influence on a call", "statement": "Data that carries a header (files, JSON documents) is decoded by the version in it; data that carries none (to_binary, from_binary, update_from_binary, attributes being written) by the current version. For any number of threads, each making any sequence of calls (loading binary files and JSON documents of any version, including ones that throw; reading and applying messages; writing messages, files and documents; reading meshes), in any interleaving, every call answers exactly what it answers when it is the only call ever made in the process; every call finishes after at most seven steps of its thread; between calls the thread's header is the current one, and at every moment it does not depend on other threads. In particular a graph written by to_binary is read back by from_binary in any thread at any time.", "quantifier": "every number of threads, every list of calls per thread, every schedule", "why_tests_cant": "schedules and histories of loads; the wrong version shows only when calls overlap or a load throws", "anchors": ["include/spark_dsg/serialization/versioning.h:GlobalInfo,ScopedInfo", "src/serialization/file_io.cpp:loadDsgBinary", "src/serialization/graph_json_serialization.cpp:readGraph", "src/serialization/mesh_serialization.cpp:deserializeFromJson", "src/node_attributes.cpp:serialization_info", "python/bindings/spark_dsg_bindings.cpp:to_binary,from_binary,update_from_binary"]}
{"id": "C70", "title": "What was saved under a name is what loads from it", "statement": "After save(path) of a graph or mesh to a file that can be written, load of the file's name (path with .sparkdsg added if it had no extension) returns that graph (in the sense of C41 for binary files and C54 for JSON) or mesh, whatever was saved, loaded, interrupted or changed before, and whatever happens to other files afterwards. If the process dies while saving a binary file, load throws or returns the graph that was being saved, perhaps without its mesh (or the mesh that was being saved); a torn JSON file throws; before the file is opened nothing has changed. A binary save that throws, or a name with a foreign extension, changes no file. A binary mesh file without a header, of another project or older than 1.0.2 is refused. Shown as deviations: load(path) with the same extensionless path throws, unless something else has that name, in which case it loads the file with the extension; a file that cannot be written is not reported; a JSON save that throws has already emptied the old file.", "quantifier": "every history of saves, loads, crashes and foreign changes, every path, every graph the format can hold", "why_tests_cant": "histories, crash points, arbitrary paths", "anchors": ["src/dynamic_scene_graph.cpp:save,load", "src/serialization/file_io.cpp", "src/serialization/mesh_serialization.cpp:save,load"]}
{"id": "C71", "title": "Saving and loading again and again changes nothing more", "statement": "Save a graph and load it again any number of times, in any mixture of the binary and the JSON format, with any programs that know the library's classes: every step succeeds, and the last graph has exactly the layers, nodes, times, attributes and edges of the first, and its mesh unless some step left it out; two journeys end with the same contents. Conditions: the first graph can be saved (as in C41; as in C54, without rounding, if JSON takes part), and no binary file on the way is larger than an object can be. Whatever was loaded, the last slot of every dynamic layer is in use. Deviation shown: the place of the next node of a dynamic layer is not saved; in every loaded graph, appending to a prefix whose node 0 exists is refused.", "quantifier": "every graph that can be saved, every list of formats and programs, of any length", "why_tests_cant": "unbounded histories; drift shows only after many rounds", "anchors": ["src/serialization/graph_binary_serialization.cpp:writeGraph,readGraph", "src/serialization/graph_json_serialization.cpp", "src/dynamic_scene_graph.cpp:emplacePrevDynamicNode,emplaceNode", "src/dynamic_scene_graph_layer.cpp:emplaceNodeAtIndex"]}
{"id": "C72", "title": "A receiver that missed, repeated or reordered messages has the graph of the last one it got", "statement": "Senders publish graphs they have at any moments. Whichever of the messages arrive, in whatever order and how often, the receiver takes every one of them without an error, and then has exactly the layers, nodes, times, attributes and edges of the graph the last one was made from, and the last mesh that arrived since the layers last changed; graph() of the receiver shows this under every schedule of its threads. Conditions: the published graphs can be saved (C41), an id is never used for another layer or time, no two ids for the same time of a dynamic layer, and a node that is missing in some of them has no edge to another layer with its LayerId (the deviations are those of C42). Senders that only create static nodes, each id always in the same layer, meet them with any history of allowed calls, any number of restarts and any layers.", "quantifier": "every set of published graphs meeting the conditions, every history of a static sender, every list of arrivals, every schedule", "why_tests_cant": "histories of senders, loss and order of messages, schedules", "anchors": ["src/zmq_interface.cpp:ZmqGraph,ZmqSender,ZmqReceiver", "src/serialization/graph_binary_serialization.cpp:updateGraph,readGraph"]}
{"id": "C73", "title": "Numbers in JSON are read as the nearest number of the type", "statement": "A member of type float reads every JSON number as the float nearest to it, the even one of two equally near, and infinity from half way above the largest float on; a member of type double reads integers the same way and doubles unchanged. A finite float is written as the double with exactly its value. A member of an unsigned integer type of n bits reads an integer modulo 2^n and another number truncated towards zero; a member of type int reads an integer modulo 2^32, between -2^31 and 2^31-1, and another number truncated. A number that is no integer literal and whose truncation is out of the range of the type is undefined behaviour (conversion in C++), shown as such. The conversion of a double beyond the largest float is taken to be that of IEC 559.", "quantifier": "every JSON number, every type", "why_tests_cant": "all doubles and integers; ties and overflow are rare", "anchors": ["include/spark_dsg/serialization/json_conversions.h", "src/serialization/json_conversions.cpp", "include/spark_dsg/serialization/attribute_serialization.h", "src/serialization/graph_json_serialization.cpp"]}
{"id": "C74", "title": "Destroying a receiver", "statement": "The destructor of a ZmqGraph returns: from its call on the receive thread makes at most seven steps and two for each message that still arrives, and until it returns there is always a next step, unless a message cannot be read (then the process ends, C50). After it returned no thread of the object is left. Before it was called, the receive thread never stops receiving, provided the flag should_shutdown_, which the constructor leaves uninitialised, happened to be false: otherwise nothing is ever received. Calls between constructor and destructor behave as in C50. A sender that keeps messages coming can keep the destructor from returning, and hasChange() from becoming true, for any number of messages: shown as such.", "quantifier": "every interleaving of the receive thread with a thread that calls hasChange, graph and last the destructor; every sequence of messages", "why_tests_cant": "all schedules and message sequences", "anchors": ["src/zmq_interface.cpp", "include/spark_dsg/zmq_interface.h"]}
{"id": "C75", "title": "Conversion to networkx keeps the graph", "statement": "graph_to_networkx returns a networkx graph whose nodes are exactly the nodes of the static layers, or of all layers if dynamic ones are included, each with the fields of its attributes, and whose edges are exactly the edges between two such nodes, each with the fields of its attributes; no node without attributes appears. layer_to_networkx does the same for one layer, of a graph or on its own. Including dynamic layers relies on reading the slot behind the last node of a dynamic layer being harmless: as C++ defines it, the call is undefined as soon as there is a dynamic layer (shown as such).", "quantifier": "every graph reachable through the API, every layer; any conversion of attributes to fields", "why_tests_cant": "all graphs and call histories", "anchors": ["python/src/spark_dsg/networkx.py", "python/bindings/scene_graph_iterators.h", "python/bindings/spark_dsg_bindings.cpp"]}
{"id": "C76", "title": "Conversion to pytorch geometric keeps the graph", "statement": "scene_graph_to_torch_homogeneous returns tensors with exactly one row for each node of a static layer (features as given by the node converter, position, label, id), a mask for every static layer that is true exactly in the rows of its nodes, and columns of row numbers: with is_undirected both directions of every edge between two such nodes, otherwise one, from the node of the larger LayerId (source to target within a layer), never one twice, each with the features the edge converter gives for that edge. Conditions: the converters return, and every static node has a semantic label; otherwise the call raises (shown as a deviation). The sizes allocated from num_static_nodes and num_static_edges always fit. scene_graph_layer_to_torch does the same for one layer, of a graph or on its own, without labels and ids: the rows are in the order of the ids, and the columns are both directions of every edge. With an edge converter it never returns (shown as a deviation).", "quantifier": "every graph reachable through the API, any converters", "why_tests_cant": "all graphs and call histories; order and number of edges", "anchors": ["python/src/spark_dsg/torch_conversion.py:scene_graph_to_torch_homogeneous,scene_graph_layer_to_torch,_get_directed_edge", "python/bindings/scene_graph_iterators.h", "src/dynamic_scene_graph.cpp:numStaticNodes,numStaticEdges"]}
{"id": "C77", "title": "Assigning places to rooms spreads the rooms and keeps the rest", "statement": "expand_rooms returns for every graph that has the layers of places and rooms, whatever the order of its sets and the weights of the edges are: there is no endless flood fill and no exception. The result has the layers, nodes, edges and mesh of the graph. The only new parent of a node is one for each node on the level of the places that does not have exactly one parent and can be reached, over siblings like it, from a place that has one: the parent of such a place. A place with exactly one parent keeps it as the only one, a place without any gets exactly one, a place that cannot be reached keeps its parents; a place with several parents that can be reached may get another one (shown as a deviation). The only other new edges join two different rooms a place and a sibling of it are in, and every two such rooms are joined. New edges have default attributes. Without one of the two layers the call throws.", "quantifier": "every graph reachable through the API, every order of the loops, every heap", "why_tests_cant": "all graphs and call histories; the spread over unbounded chains of places; all weights", "anchors": ["python/src/spark_dsg/mp3d.py:expand_rooms,_expand_node,_assign_room_edges", "src/scene_graph_node.cpp:hasParent,getParent", "src/dynamic_scene_graph.cpp:clone,insertEdge"]}
{"id": "C78", "title": "New rooms replace the old ones", "statement": "repartition_rooms returns for every graph that has the layers of rooms, places and buildings, whatever the order of its loops is, and no exception is raised, provided no dynamic layer has the LayerId of the rooms, the ids of the new rooms differ, and each is unknown or that of an old room. A new room is kept exactly if some place falls into it (it is the first of the list whose area has the position of the place) and, with a threshold, the comparison of areas does not reject it. In the result the old rooms are gone, the kept rooms are nodes of the room layer with their attributes and no timestamp, and every other node and the mesh are as before. The edges are exactly those of the graph between nodes that are not old rooms, unchanged, and edges with default attributes between kept rooms and one building (if there is any), places and the room they fall into, and the different rooms (only parents) of a place and of a sibling of it. So the parents of a place are its old ones without the rooms, and the room it falls into if it is kept. Without one of the three layers the call throws. A room without places is dropped (shown as a deviation from adding every room).", "quantifier": "every graph reachable through the API, every list of rooms, every order of the loops, every area test and area comparison (not raising)", "why_tests_cant": "all graphs and call histories; number and shape of rooms", "anchors": ["python/src/spark_dsg/mp3d.py:repartition_rooms,_assign_room_edges", "python/bindings/spark_dsg_bindings.cpp", "src/dynamic_scene_graph.cpp:clone,removeNode,emplaceNode,insertEdge,getPosition"]}
{"id": "C79", "title": "Writing ground-truth labels changes only labels of rooms", "statement": "add_gt_room_label with use_hydra_polygon ends for every graph that has the layer of the rooms, whatever the order of its loops is. It changes nothing but semantic labels of nodes of that layer: layers, nodes, positions, all other attributes, edges and the mesh stay. If it returns, every room has the label of the first room of the house file at its height that overlaps most with the area of its places, or its old label if that overlap is below the threshold. If it raises, there is a room for which no such label can be found or written (an area cannot be computed, no room of the house is at its height, its attributes have no label), and every room has its new label or is as before: the call is not all-or-nothing (shown as a deviation). Without the layer of the rooms it raises and changes nothing. With the default use_hydra_polygon=False it raises as soon as there is a room, since bounding boxes have no min_corner in Python (shown as a deviation from the documentation). Condition: overlaps are compared by a strict weak order (no NaN).", "quantifier": "every graph reachable through the API, every list of rooms of a house file, every order of the loops, every area and overlap (raising or not)", "why_tests_cant": "all graphs and call histories; the point at which an exception leaves the loop; ties between overlaps", "anchors": ["python/src/spark_dsg/mp3d.py:add_gt_room_label,pos_on_same_floor", "python/bindings/spark_dsg_bindings.cpp:BoundingBox,SemanticNodeAttributes", "include/spark_dsg/node_attributes.h:SemanticNodeAttributes"]}
{"id": "C80", "title": "A saved collection of layers is read back", "statement": "After LayerCollection.save of a dictionary of layers (not empty, every layer has bytes that from_bson reads back), whatever sequence of open, close, indexing, slices, len, indices and loops is run on an object for that path, while nobody writes to its two files: opening and closing succeed; while it is open len and indices are those of the dictionary, collection[k] is the layer of key k (len + k for negative k) or raises IndexError, a slice yields the layers whose keys are the Python slice of 0, ..., len - 1 or raises if one of them is no key, and a loop yields the layers of the keys 0, 1, ... up to the first that is missing; while it is not open each raises RuntimeError. So with the keys 0, ..., n - 1, inserted in any order, it is read like the list of the layers. The record has each layer's numbers of nodes and edges. Deviations shown: the bindings of this commit have no to_bson and from_bson, so that nothing but the empty dictionary can be saved and nothing read; the empty collection cannot be opened; a save that raises leaves new bytes under the old record, from which a layer of neither dictionary can be read; with other keys loops end early and negative numbers are not positions; names that differ only after the last dot share their files.", "quantifier": "every dictionary of layers, every encoding with that round trip, every sequence of operations, every path and other files", "why_tests_cant": "all histories of an object; all slices (any bounds and step); sizes of collections", "anchors": ["python/src/spark_dsg/io.py:LayerCollection,IndexInfo", "python/bindings/spark_dsg_bindings.cpp:SceneGraphLayer"]}
{"id": "C81", "title": "Copies and moves of meshes", "statement": "In every program that creates meshes, calls their interface, clones, copies, assigns, moves and swaps them, each mesh is at any time one that the interface could have built from a new one, so that C43 and C44 hold for it. A clone, a copy or the left side of an assignment has the value of the other mesh, which enabled arrays it has included, whatever it was before; afterwards the two are independent: whatever is done with the one, the other keeps that value, and until then they are equal (operator==) exactly if no coordinate is a NaN. A move gives the left side that value and leaves the other as an empty mesh with its configuration, ready for use; std::swap exchanges two meshes. No statement changes an object it does not name, and only an assignment to an object changes which arrays it has. Deviations shown: an assignment changes the members has_colors etc., which are declared const (the model takes the write to happen; the C++ standard leaves it undefined); an object moved to itself loses its content. A moved-from vector is taken to be empty.", "quantifier": "every program over any number of meshes, every sequence of calls, copies, moves and exceptions", "why_tests_cant": "all histories and aliasings of objects", "anchors": ["src/mesh.cpp:operator=,clone", "include/spark_dsg/mesh.h:Mesh"]}
