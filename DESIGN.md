# Formal model of iLCSoft/GEAR in Rocq (Coq 8.16.1)

## Approach

The model is a set of small total Gallina functions, one per C++ function, in
`rocq/theories/*Model.v`. Each definition cites the file and lines in `/repo` it models and
says where it simplifies. Proofs live in `*Proofs.v`. The property theorems live in `Prop*.v`
files: each is stated against a small specification that does not use the model's helpers,
is closed by `exact`, is followed by `Print Assumptions`, and has an `Example` showing that a
concrete non-trivial case meets its hypotheses.

Conventions:

* **Outcomes.** A C++ call has one of the outcomes `Ok v`, `Throw e` (a C++ exception, with its
  kind and message key) or `UB` (undefined behaviour: null dereference, out-of-range subscript,
  double delete, use after delete ...). Loops without a structural bound take fuel and have
  `OutOfFuel` as a separate outcome.
* **Integers.** `int` is `Z`; where overflow, masking or conversion is observable (pad indices,
  cell ids, `unsigned` comparison) the 32/64-bit wrap is written explicitly.
* **Doubles.** Geometry is modelled over Coq's `R`. Rounding, NaN and infinities are *not*
  modelled there; this is part of the trusted base. The text form of doubles (`%.9e`, `atof`), the loops
  over turns (C73) and material maps (C74) are also modelled with rounding.
* **Strings** are Coq `string` (byte lists), `std::map<std::string,_>` is a sorted association list.
* **Heap.** Where ownership matters (manager, handler registry) objects have addresses and the
  heap records live/freed; deleting twice or touching a freed object is `UB`.
* A property that the unchanged code violates is stated in full, refuted by a theorem ending in
  `_refuted` with a concrete witness, and proved under the exact guard where it holds.

## Plan per property

| Property | Model | Proof |
|---|---|---|
| C01, C02 | `GearParametersImpl`: six sorted maps, set/get/keys | induction over call histories against a "last matching call" spec |
| C03, C04, C06 | `GearMgrImpl` slots, generic map, materials | induction over call histories |
| C05 | `GearMgrImpl` with heap (live/freed addresses) | invariant over histories; refutations by computation |
| C07 | pad index coding with 32-bit wrap | bit lemmas |
| C08-C13 | `RectangularPadRowLayout` over R | invariant over addRow histories |
| C14-C17 | `FixedPadSizeDiskLayout`, `FixedPadAngleDiskLayout` over R | real arithmetic |
| C18 | `VersatileDiskRowLayout` | invariant over addRow histories |
| C19 | `LayerLayoutImpl`, `CalorimeterParametersImpl::getExtent` | induction over histories |
| C20, C21 | `CartesianCoordinateSystem`, boundaries, `MeasurementSurface` | linear algebra over R |
| C22 | `MeasurementSurfaceStore` state machine with failing fills | induction over histories |
| C23 | `Vector3D` | ring/trigonometry |
| C24-C28 | `TPCParametersImpl` | induction over histories; divergence as absence of any terminating fuel |
| C29 | `TPCModuleImpl` transforms | trigonometry |
| C30 | `GlobalPadIndex` | case analysis |
| C31, C41 | tinyxml `PutString`, `GetEntity`, `ReadText`, attribute print/parse on byte lists | induction on strings |
| C32, C33 | `GearParametersXML`, tokenizer, `%d`/`atoi`, `%.9e`/`atof` | codec lemmas |
| C34-C37 | XML handlers as functions to/from an XML tree | list induction, refutations by computation |
| C38, C39, C50 | `GearXML`, `XMLHandlerMgr` | case analysis over slots, state machine |
| C40 | `MergeXML` on trees | induction on trees |
| C42 | `ZPlanarParametersImpl`, `ZPlanarLayerLayoutImpl` | real arithmetic |
| C43, C44 | `FTDLayerLayoutImpl`, `FTDParametersImpl` | case analysis, real arithmetic |
| C45-C48 | `MaterialMap`, `MaterialMapFactory`, `TGeoGearDistanceProperties` with ROOT as an oracle | state machine, real arithmetic |
| C49 | CGA cell id packing | bit lemmas |
| C51 | the cached index vectors of the four pad layouts | invariant over histories with interleaved queries |
| C52-C58 | nearest pad, distance, inside tests of the layouts; distance to a module | real arithmetic against Euclidean specifications |
| C59-C61 | module extents (boxes, radii, directions seen from the origin), borders, placements | trigonometry, tangents, case analysis |
| C62-C64 | points, distances and intersections of ladder detectors | real arithmetic |
| C65 | files that end too early or have a broken tag | induction over the printed document |
| C66 | field, materials; numbers read through one stream | codec lemmas, refutations |
| C67 | beam telescopes: layers, setters, device under test | induction over histories |
| C68 | TPC files: default modules, numbering, old files | induction over the nodes |
| C69 | TGeo point queries sharing one navigator | right answers as a relation; induction over histories |
| C70 | volume lists, with their loop and its termination | induction over the branch |
| C71 | plugin object: configure, initialize, hand out | induction over histories |
| C72 | queries to Mokka: units, sums, static vectors | induction over histories |
| C73 | loops over turns in doubles | error bound by induction over the turns; absorption above 2^56 |
| C74 | material map constructor and reading in doubles | error bound by induction over the steps; invariant of the nested loops; an invariant of the weighted sums with relative errors; three grids computed exactly |
| C75 | operator<< for the manager: what a stream is given, with exceptions and both evaluation orders | every printer adds a list; the pieces are found in the sum |
| C76 | the format as part of the stream | relation between format before and after; comparison of the first number printed |
| C77 | sprintf of ints, fixed decimals and texts into a buffer of 1024 | lengths of decimal texts; splitting into words; reading back |
| C78 | the loop over layers that skips repeated ones | induction over the layers |
| C79 | printing of parameters, fields, TPC | every printer adds a list |
| C80 | the rectangular layout with every operation rounded to the nearest double (Flocq) | state after any calls by induction; error bounds of edges, centres and quotients; the search stays in the rows |
| C81 | the same | each step lands next to the point; two neighbouring rows send the point to each other exactly in the gap; exact sizes by integers |
| C82 | the same | error bound of the centre against the cell; uniqueness of the pad |
| C83 | the reader and writer of C38 applied twice | a loaded number is kept (C33); what is loaded can be written; the loaded manager meets the hypotheses of C38; induction over a zigzag of layers |
| C84 | pad questions of a mounted TPC module, with its layout | rotation and shift inverted (C12); pads of the layouts (C07, C09) carried over |
| C85 | the three programs on a disk that maps names to bytes, with writable names | case analysis over the ends of each program; C38, C40, C75 and C83 carried over to files |
| C86 | pad questions of a TPC (C26) of mounted modules (C84) | the distance of a pad from its centre decides the first minimum over the modules; uniqueness of the cell of the centre |
| C87 | getNearestPadOld, the loop over the rows and the column in the row | induction over the loop: the value compared is -1 inside and the Euclidean distance outside; first minimum below the limit; comparison with the search of C09 |
| C88 | the parser again, in a monad that carries row, column, last stamp and the error, with a bound on the turns of the loop in `Stamp` | simulation by the parser of C41; triples that say at which suffix of the text the last stamp was, with the position of the prefix before it; monotone in the bound; the loop that never ends by induction on the bound |
| C89 | what is alive (lists of pads, layouts, modules, TPCs) as maps from addresses; every call as a step that returns, throws or is undefined behaviour | a book of ownership kept by the user; an invariant that ties memory and book, kept by every step; the misuses by what the invariant says about the state before |
| C90 | `addLayer` and `getExtent` of C19 with every sum rounded to the nearest double | the layers of a history in closed form; relative error of a sum of doubles; induction for the sum; equality of runs if nothing is rounded |
| C91 | the nodes of TinyXml with all their pointers on a heap, deletion and copying as recursive functions with a number of turns | the heap as the cells of a forest (separation by disjoint address lists); each call on the cells around one node, then on the forest by focusing on the node; more turns give the same outcome; the forest is determined by the cells |
| C92 | `TiXmlAttributeSet`: attributes in a ring closed by a sentinel, on a heap, with what elements do with them | the heap as the cells of disjoint rings; each call on one ring, then on the elements; copies as a sequence of settings; going through the ring by induction; more turns give the same outcome |
| C93 | `operator<<` and `operator>>` of documents: the reading loops on the bytes left in a stream, with the parser of C31 | renderings of a tree with any white space between nodes, as an inductive relation: parsing gives the tree back, streaming takes exactly the rendering; what the writers give is a rendering; on any input what is taken plus what is left stays the same and each turn takes a byte |
| C94 | `GearParametersImpl` with the nodes of its maps, the key vectors it keeps and their iterators; loops; steps of const calls interleaved by a schedule | invariant: keys have nodes of their own; histories by their last call; loops by induction on what is left; for threads an invariant of what each still has to do, with key lists used by one thread each |
| C95 | `getMaxRadius` with its roundings to double and to float, and the three checks of lines 51-73 of `ZPlanarParametersImpl.cc` in doubles | relative error bounds of Flocq carried through sums, squares and roots, underflow included; the counterexample by rounding at a midpoint between floats |
| C96 | `TiXmlHandle` and the element searches, on the linked nodes of C91 | a search from child i ends at the first child that a predicate accepts; loops by well-founded induction on the children left; chains by induction |
| C97 | `FixedPadAngleDiskLayout`: constructor, `getPadCenter` and `getNearestPad` (for angles within the layout) with every operation rounded | relative errors of cell size and quotient, absolute errors of sums; the loops do not turn; counterexample by rounding at a midpoint |
| C98 | `FixedPadSizeDiskLayout`: constructor, `getPadCenter` and `getNearestPad` (for points within the opening angle) with every operation rounded | relative errors of radius, arc, pitch and quotient; the loops do not turn; cell lemmas of C97 |
| C99 | `VersatileDiskRowLayout`: `addRow`, `getPadCenter` and `getNearestPad` with every operation rounded, NaN from square roots, the cosine a parameter | relative error of the radii by induction on the rows; rows further in have wider pads and a positive distance, rows further out never a smaller one; counterexample by rounding back |
| C100 | the models of C97 and C98 in doubles, for arbitrary points | error bound of the quotient for any coordinate, also tiny ones; floor and clipping; counterexample by half-way points of neighbouring doubles |
| C101 | `RectangularPadRowLayout::addRow`, `repeatRows`, `VersatileDiskRowLayout::addRow`, `FixedPadAngleDiskLayout` and `FixedPadSizeDiskLayout` constructors with the count of pads in `int`, overflow undefined | the step in ints is the unbounded step cut off at the largest int; counts never decrease, so this carries over to histories |
| C102 | both forms of `FixedPadAngleDiskLayout::isInsidePad` in doubles | error bounds of the four edges of a pad; the gap by computing the roundings of one layout exactly |
| C103 | `FixedPadSizeDiskLayout::isInsidePad(r,phi,padIndex)` and `getPadWidth` in doubles | error bounds of centre, half width and half height; comparison of a computed distance with a computed bound |
| C104 | `VersatileDiskRowLayout::isInsidePad(r,phi,padIndex)` in doubles | error bounds of the edges of the cell and of the end of the row; a point below the pad ends above it when a turn is added |

Not expressible: nothing in the list needs a different kind of model; thread schedules play no
role because the library is single threaded.

## Specifications

Each area has a small file `*Spec.v` that a reader who knows the English property can check without
the proofs: "the last matching call" for parameter and manager histories, the intended row tables of
the pad layouts, Euclidean distance to a set, "the smallest box containing these points", the
intended detector description next to what may come back from a file (`came_back`, ten significant
digits), the intended merge of two trees. Theorems quantify over all histories, all arguments and all
file contents the English statement ranges over; hypotheses are the guards under which the code keeps
the property, and each guard is shown necessary by a `_refuted` theorem with a witness.

## Trusted base

1. Coq 8.16.1's kernel (and `coqc`/`vm_compute`, which some witnesses use).
2. The axioms listed below: those of Coq's standard library reals and, through Flocq, classical logic.
   No axiom is declared in `/verif`; no other library's axioms occur.
3. The faithfulness of the model files to `/repo`: each definition cites the lines it models.
   Only text was read; nothing was built or run.
4. The reading of things outside `/repo`: the C and C++ libraries (`sprintf`, `atof`, `atoi`,
   stream extraction, `std::map`, `std::vector`), CLHEP rotations, ROOT's navigator and Mokka's CGA
   functions (the last three are parameters or documented behaviour).

### What is modelled

| Code in /repo | Model file | Left out |
|---|---|---|
| `GearParametersImpl` | `ParamsModel.v`, references, key vectors and threads `RefModel.v` | copying and assigning whole objects (values only); in `RefModel.v` each step on a vector is atomic |
| `GearMgrImpl` with memory | `MgrModel.v` | the surface store it owns (see `SurfModel.v`) |
| `RectangularPadRowLayout` | `RectModel.v`, `RectOldModel.v`, in doubles `FpRectModel.v`, count of pads in `int` `IntPadModel.v` | in doubles: overflow to infinity, registers wider than a double |
| `FixedDiskLayoutBase`, `FixedPadSizeDiskLayout`, `FixedPadAngleDiskLayout`, `VersatileDiskRowLayout` | `DiskBase.v`, `FpsModel.v`, `FpaModel.v`, `VdModel.v`; `FixedPadAngleDiskLayout` in doubles `FpFpaModel.v`, `FpInsideModel.v`, `FixedPadSizeDiskLayout` in doubles `FpFpsModel.v`, `FpInside2Model.v`, `VersatileDiskRowLayout` in doubles `FpVdModel.v`, `FpInside3Model.v`, count of pads in `int` `IntPadModel.v` | in doubles: angles outside the first two layouts, the form of `isInsidePad` without a pad of `FixedPadSizeDiskLayout` and `VersatileDiskRowLayout`, `getDistanceToPad` and the neighbours |
| `LayerLayoutImpl`, `CalorimeterParametersImpl` | `CaloModel.v`, in doubles `FpCaloModel.v` | |
| `Vector3D`, `Vectors.h` | `VecModel.v` | templates over other vector types |
| `gearsurf/*` | `SurfModel.v` | CLHEP itself |
| `TPCModuleImpl` | `TpcModuleModel.v` | a module used as the layout of another module |
| `TPCParametersImpl`, `GlobalPadIndex` | `TpcModel.v` | destructor (in `MemModel.v`) |
| destructors, copies and assignments of pad layouts, modules and TPCs | `MemModel.v` | everything but ownership; copying and assigning a `TPCParametersImpl`; layouts that are modules given to `setPadLayout`; lack of memory |
| `FTDLayerLayoutImpl`, `FTDParametersImpl` | `FtdModel.v` | messages on `std::cout` |
| `ZPlanarLayerLayoutImpl`, `ZPlanarParametersImpl` | `ZpModel.v`, quick checks in floats and doubles `FpZpModel.v` | roundings in the other functions, overflow, sign of zero |
| `SiPlanes*`, `TrackerPlanes*` | `TrkModel.v` | |
| `MaterialMap`, `MaterialMapFactory` | `MatModel.v`, in doubles `FpMapModel.v` | the material budget (a parameter); sine and cosine in doubles (a parameter) |
| loops over turns of the disk layouts, in doubles | `FpModel.v` | overflow; the loops of `TPCModuleImpl` (over the reals in `TpcModuleModel.v`) |
| `TGeoGearDistanceProperties` | `TgeoModel.v` | ROOT's navigator (a parameter) |
| `TGeoGearPointProperties`, `TGeoMaterialProperties`, `TGeoGeometryInitializer`, `<GDMLFile>` of `GearXML` | `PointModel.v` | ROOT's manager and GDML parser (parameters), dynamic loading |
| `CGAGearPointProperties::getCellID`, `CGAGeometryInitializer` | `CgaModel.v` | Mokka (a parameter) |
| `CGAGearPointProperties`, `CGAGearDistanceProperties` | `PointModel.v` | Mokka (a parameter) |
| `XMLHandlerMgr` registry and helpers | `HandlerModel.v`, `HxModel.v` | |
| `tinyxml.cc`, `tinyxmlparser.cc` | `XmlModel.v` | recursion depth; row/column tracking and error texts (in `PosModel.v`) |
| `Stamp`, `SetError` and the parser with its places, `tinyxmlerror.cc` | `PosModel.v` | texts of errors that the parser cannot set; the place stored with each node (never read by GEAR); reading beyond the buffer when a multi-byte character is cut (outcome `TUB` as in `XmlModel.v` for the parser, `Stamp` itself stays within) |
| `TiXmlNode` and the nodes derived from it: pointers to parent, children and siblings; `TiXmlHandle` | `DomModel.v`, `HandleModel.v` | of the contents only type and value; attributes are in `AttrModel.v` |
| `TiXmlAttributeSet`, `TiXmlAttribute`, attributes in `TiXmlElement`: links, sentinel, deletion | `AttrModel.v` | NUL in names and values; the place and document of an attribute; conversions of values (`XmlModel.v`) |
| `operator<<`, `operator>>`, `StreamOut` and `StreamIn` of the nodes, `StreamTo`, `StreamWhiteSpace` | `StreamModel.v` | reading into a document that is not empty; errors set while streaming (parsing clears them); stream state other than good or not |
| numbers in files | `NumModel.v` | infinities, NaN, overflow of `atof` |
| `GearParametersXML`, `CalorimeterParametersXML`, pad layout handlers, tracker/field/material handlers, TPC handlers | `ParXmlModel.v`, `CaloXmlModel.v`, `PadXmlModel.v`, `TrkXmlModel.v`, `TpcXmlModel.v` | |
| `GearXML` | `GearXmlModel.v` | GDML files (the library is optional) |
| `operator<<` of `Util.cc`, `PrintHeader`, `PrintLayers`, `PrintFooter` of `TrackerPlanesLayerLayoutImpl` | `UtilModel.v` | how `std::ostream` turns a number into characters; failing streams; field width |
| `MergeXML` | `MergeModel.v` | failure to open the output file (in `ToolModel.v`) |
| `mergeXML.cc`, `testXMLCopy.cc`, `printParameters.cc` | `ToolModel.v` | texts on standard output (but for printParameters), writes that fail half-way, destructors at the end |

Not modelled: the other programs in `src/test`, Java and Python
bindings.

Simplifications that matter for reading the theorems:

* **Doubles are real numbers** in all geometry. Theorems say nothing about rounding, NaN and infinity;
  where the code would divide by zero the model says `UB`. Exceptions are `FpModel.v`, `FpMapModel.v`,
  `FpRectModel.v` and `FpCaloModel.v`, which round every operation to the nearest double (Flocq's `round`, no overflow): there the loops that
  bring an angle into range never end for very large angles (C73), and `x += step` in `MaterialMap` may
  miss the last plane (C74), and the row search of the rectangular layout can go on for ever (C81), and thin layers of
  a calorimeter far out come to lie at one place (C90), and large layers of planar ladders lose points (C95, `FpZpModel.v`); all invisible in the models over the reals.
* `std::vector` sizes and `new` always succeed; recursion is unbounded.
* Exceptions carry a kind and a key, not the exact text.

### What Print Assumptions lists

Every property theorem is followed by `Print Assumptions` in its `Prop*.v` file. Grouped by the list
printed:

**Closed under the global context** (146 theorems): `C01_last_write_wins`, `C02_keys_exact_sorted`, `C06_duplicate_refused`, `C22_bindings_stay`, `C22_copy`, `C22_fill_exact`, `C22_fill_once`, `C22_final`, `C22_history_total`, `C22_mixed_refuted`, `C22_no_retry`, `C22_null_undefined`, `C22_surfaces_leak`, `C30_order`, `C31_attribute_kept`, `C31_document_kept`, `C31_reference_refuted`, `C33_int_kept`, `C40_apart_refuted`, `C40_childless_refuted`, `C40_dominance`, `C40_dominant_kept`, `C40_exact`, `C40_field_lost_refuted`, `C40_new_repeated_refuted`, `C40_new_taken`, `C40_only_parts_refuted`, `C40_part_missing_refuted`, `C40_second_merge_refuted`, `C41_ampersand_dropped`, `C41_ends`, `C41_open_comment_refuted`, `C41_open_quote_refuted`, `C41_open_reference_refuted`, `C41_tidy_defined`, `C43_count`, `C43_not_seven_exists`, `C43_seven`, `C43_values`, `C49_decode`, `C49_injective`, `C49_throws`, `C49_value`, `C50_last_handler`, `C50_memory_safe`, `C50_twice_refuted`, `C50_two_types_refuted`, `C65_cut_refuted`, `C65_repeated_attribute_refuted`, `C67_layout_ID_refuted`, `C67_planes_by_ID`, `C67_planes_by_index`, `C69_answers`, `C69_local_after_list_refuted`, `C69_local_after_material`, `C69_local_new_refuted`, `C69_local_outside_refuted`, `C69_local_where`, `C69_name_changes_refuted`, `C69_name_kept`, `C69_right_unique`, `C70_hierarchy`, `C70_never_returns_refuted`, `C71_configured_unique`, `C71_gdml_element`, `C71_initialize`, `C71_objects`, `C72_initialised_once`, `C79_field`, `C79_module`, `C79_parameters`, `C79_tpc`, `C85_merge_arguments`, `C85_merge_only_target`, `C85_merge_primary`, `C85_merge_refused`, `C85_merge_status_refuted`, `C85_merge_unreadable`, `C85_merge_written`, `C88_first_error`, `C88_never_returns_refuted`, `C88_position`, `C88_returns`, `C88_same_document`, `C88_tidy`, `C88_turns`, `C89_again_refused`, `C89_asked_again`, `C89_exact`, `C89_no_leak`, `C89_renumbered_refuted`, `C89_safe`, `C89_same_list`, `C89_self_assignment_refuted`, `C89_shared_layout_refuted`, `C89_throw`, `C89_two_tpcs_refuted`, `C91_assign_below_refuted`, `C91_calls`, `C91_calls_any`, `C91_document`, `C91_iterate`, `C91_iterate_value`, `C91_last_child`, `C91_link_twice_refuted`, `C91_links`, `C91_no_leak`, `C91_remove_stranger_refuted`, `C91_self_assign_refuted`, `C91_trees`, `C92_attribute`, `C92_backwards`, `C92_calls`, `C92_calls_any`, `C92_copy`, `C92_forwards`, `C92_hidden_refuted`, `C92_links`, `C92_no_leak`, `C92_self_assign_refuted`, `C92_set_get`, `C92_twice_refuted`, `C92_visits_all`, `C93_comment_refuted`, `C93_ends`, `C93_exchange`, `C93_many`, `C93_nothing_lost`, `C93_nul_refuted`, `C93_print`, `C93_prolog`, `C93_turns`, `C94_apart`, `C94_index`, `C94_index_refuted`, `C94_iterator`, `C94_key_list`, `C94_threads`, `C94_threads_refuted`, `C94_value_reference`, `C96_after_delete_refuted`, `C96_casts`, `C96_chain`, `C96_dangling_refuted`, `C96_negative_index_refuted`, `C96_null`.

**`ClassicalDedekindReals.sig_forall_dec`** (22 theorems): `C03_detector_name`, `C03_generic`, `C03_keys_sorted`, `C03_slots`, `C04_beam_crossing_angle`, `C05_destruction_exact`, `C05_every_object_deleted_refuted`, `C05_same_tpc_twice_refuted`, `C05_shared_object_refuted`, `C06_materials`, `C06_names_sorted`, `C19_barrel_extent`, `C19_endcap_extent`, `C19_layers`, `C19_touch`, `C23_bracket`, `C39_getters`, `C43_max_radius`, `C43_max_radius_mirror_refuted`, `C67_overloads_refuted`, `C67_telescope_refused`, `C67_telescope_table`.

**`ClassicalDedekindReals.sig_forall_dec`, `FunctionalExtensionality.functional_extensionality_dep`** (55 theorems): `C07_fpa_index_refused`, `C07_rect_alias_beyond_65536`, `C07_rect_index_lossless`, `C07_rect_negative_pad_accepted`, `C08_npads_refuted`, `C08_rows_tile`, `C09_low_pads_undefined`, `C09_nearest_row`, `C09_nearest_sound`, `C09_nearest_terminates_refuted`, `C09_nearest_uniform_total`, `C101_fpa`, `C101_rect`, `C101_rect_index_refuted`, `C10_neighbours`, `C12_rect_clone_no_pads`, `C13_repeat`, `C13_repeat_zero`, `C19_first_layer_ignores_rmin`, `C19_sum`, `C20_inverse`, `C20_origin_axes`, `C23_cross`, `C23_dot`, `C23_equality`, `C24_old_interface`, `C28_assign_never_returns`, `C28_copy_never_returns`, `C43_mirror`, `C43_not_seven_refuted`, `C43_petal_phi`, `C43_sensitive_z`, `C43_sensor_distance`, `C43_sign_cut_refuted`, `C43_support_z`, `C46_again_same`, `C46_coordinates_refuted`, `C46_different_objects`, `C46_failed_again_late`, `C46_failed_again_refuted`, `C46_made_for`, `C46_not_null`, `C51_rect_pads_in_row`, `C57_fpa_counts`, `C72_lists`, `C72_lists_appended`, `C72_lists_appended_refuted`, `C72_numbers`, `C72_points`, `C77_disks`, `C77_info_overflow`, `C77_planes`, `C77_tracker_planes`, `C78_calorimeter`, `C78_cells_lost`.

**`ClassicalDedekindReals.sig_forall_dec`, `ClassicalDedekindReals.sig_not_dec`, `FunctionalExtensionality.functional_extensionality_dep`** (112 theorems): `C07_fpa_index_lossless`, `C07_fps_index_lossless`, `C07_fps_index_refused`, `C07_fps_negative_pad_accepted`, `C07_fps_no_rows_undefined`, `C07_vd_index_lossless`, `C07_vd_index_refused`, `C101_fps`, `C101_vd`, `C101_vd_accepted`, `C11_fpa_centre_inside`, `C11_fps_centre_inside`, `C11_fps_pad_geometry`, `C11_rect_centre_inside`, `C11_vd_centre_inside`, `C12_fpa_clone_same`, `C12_fps_clone_same`, `C12_rect_clone_same`, `C12_vd_clone_same`, `C14_fps_exists`, `C14_fps_fit`, `C15_fpa_nearest_centre`, `C15_fps_nearest_centre`, `C16_fpa_neighbours`, `C16_fps_neighbours`, `C16_vd_neighbours`, `C17_fpa_nearest_cell`, `C17_fpa_nearest_total`, `C17_fpa_upper_edge_throws_refuted`, `C18_vd_addRow_iff`, `C18_vd_count`, `C18_vd_every_history`, `C18_vd_extent_exact`, `C18_vd_extent_repeat_refuted`, `C18_vd_geometry`, `C18_vd_phantom_pads_refuted`, `C18_vd_stack`, `C20_isometry`, `C21_flat_trapezoid_refuted`, `C21_rectangle`, `C21_surface`, `C21_trapezoid`, `C23_cauchy_schwarz`, `C23_lengths`, `C23_unit`, `C42_max_radius`, `C42_values`, `C43_perpendicular_thickness`, `C45_map_built`, `C45_map_refused`, `C45_point_range_undefined`, `C45_reads_between`, `C45_reads_grid`, `C45_reads_outside`, `C45_uncut_range_undefined`, `C47_equal_points`, `C47_failure_forgotten_refuted`, `C47_lengths_undefined_refuted`, `C47_names_emptied_refuted`, `C47_other_pair`, `C47_since_other`, `C47_undisturbed`, `C48_answers`, `C48_equal_points`, `C48_lengths_nonneg`, `C48_parallel`, `C48_short_step_refuted`, `C48_thickness_total`, `C51_fpa_pads_in_row`, `C51_fps_pads_in_row`, `C51_vd_pads_in_row`, `C52_rect_inside_and_distance`, `C53_fps_nearest_cell`, `C53_fps_nearest_direction_refuted`, `C53_fps_nearest_minimal`, `C53_fps_nearest_total`, `C54_fpa_distance`, `C54_fpa_turn_refuted`, `C54_fps_distance`, `C54_vd_distance`, `C55_vd_after_end`, `C55_vd_before_start_refuted`, `C55_vd_nearest_cell`, `C55_vd_nearest_centre`, `C55_vd_negative_row_refuted`, `C56_fpa_inside_any_exact`, `C56_fpa_inside_exact`, `C56_fps_inside_any_complete`, `C56_fps_inside_any_sound`, `C56_fps_inside_exact`, `C56_vd_inside_above_refuted`, `C56_vd_inside_any_complete`, `C56_vd_inside_below_refuted`, `C56_vd_inside_exact`, `C64_first_crossing`, `C64_negative_half_refuted`, `C64_no_gap_refuted`, `C75_everything_printed`, `C75_ftd_stops`, `C75_heading_without_detector`, `C75_sit_set_twice`, `C76_format_left`, `C76_same_print`, `C76_second_print`, `C77_ladder_overflow`, `C77_ladders`, `C87_offset_not_nearest_refuted`, `C87_old_agrees`, `C87_old_far_refuted`, `C87_old_nearest`, `C87_old_no_rows_undefined`, `C87_old_own_pad`.

**`ClassicalDedekindReals.sig_forall_dec`, `ClassicalDedekindReals.sig_not_dec`, `FunctionalExtensionality.functional_extensionality_dep`, `Classical_Prop.classic`** (219 theorems): `C100_edge_refuted`, `C100_fpa_every_point`, `C100_fps_every_point`, `C101_fpa_index_refuted`, `C102_gap_refuted`, `C102_inside`, `C102_inside_only`, `C102_one_pad`, `C103_centre`, `C103_inside`, `C103_outside`, `C104_inside`, `C104_one_pad`, `C104_outside`, `C104_turn`, `C14_fps_pads_overlap_refuted`, `C17_fpa_nearest_outside_refuted`, `C23_cylindrical_accessors`, `C23_cylindrical_inverse`, `C23_phi_range`, `C23_spherical_accessors`, `C23_spherical_inverse`, `C23_theta_range`, `C24_add`, `C24_layout_set`, `C24_lookup`, `C24_other_calls`, `C25_plane_extent`, `C25_plane_extent_stale_refuted`, `C26_inside`, `C26_nearest_module`, `C26_nearest_pad`, `C27_sides`, `C28_module_clone`, `C29_getters`, `C29_global_to_local`, `C29_local_to_global`, `C29_round_trip_global`, `C29_round_trip_local`, `C29_side_forgotten_refuted`, `C32_doubles_nearly`, `C32_params_survive`, `C32_value_survives`, `C33_double_close`, `C33_double_stable`, `C33_kept_nearest`, `C33_largest_refuted`, `C33_lossy`, `C33_nearest_kept`, `C33_text_stable`, `C33_whole_kept`, `C34_barrel_survives`, `C34_drift_refuted`, `C34_endcap_survives`, `C34_parameters_back`, `C35_fixed_angle_refuted`, `C35_fixed_size_survives`, `C35_full_ring_refuted`, `C35_pad_lost_refuted`, `C35_rectangular_repeats_refuted`, `C35_rectangular_survives`, `C35_rectangular_unloadable_refuted`, `C35_versatile_refuted`, `C36_comes_back`, `C36_drift_refuted`, `C36_fixed_angle_refuted`, `C36_frequency_refuted`, `C36_layouts`, `C36_module_kept`, `C36_module_numbers`, `C36_old_file`, `C36_place_kept`, `C36_rectangle_refuted`, `C36_side_refuted`, `C36_unknown_type`, `C37_disks_back`, `C37_disks_many_refuted`, `C37_disks_survive`, `C37_disks_unknown_refuted`, `C37_ladders_back`, `C37_ladders_survive`, `C37_ladders_unknown_refuted`, `C37_planes_back`, `C37_planes_dut_refuted`, `C37_planes_resolution_refuted`, `C37_planes_rotation_refuted`, `C37_planes_survive`, `C37_planes_unknown_refuted`, `C37_tracker_planes_read`, `C37_tracker_planes_refuted`, `C38_fitting`, `C38_round_trip`, `C38_same_shape_refuted`, `C38_shape_refuted`, `C38_slots`, `C38_tracker_planes_refuted`, `C38_unchanged`, `C39_again_refuted`, `C39_half`, `C39_loaded`, `C39_unreadable_refuted`, `C42_inner_angles`, `C42_outer_angles`, `C42_thickness`, `C42_thickness_other_refuted`, `C44_lookup_never`, `C56_vd_centre_outside_refuted`, `C56_vd_gap_inside_refuted`, `C58_distance`, `C58_inside`, `C59_extents_cartesian`, `C59_extents_polar_angle`, `C59_extents_polar_centred`, `C59_extents_polar_radius`, `C59_extents_polar_surrounding`, `C59_full_ring_refuted`, `C59_grazed_corner_refuted`, `C60_border_cartesian`, `C60_border_polar`, `C60_border_too_wide_refuted`, `C61_calls_not_implemented`, `C61_calls_succeed`, `C61_every_history`, `C62_below_refuted`, `C62_found_inside`, `C62_inside_found`, `C63_few_refuted`, `C63_inside`, `C63_nearest`, `C63_origin_refuted`, `C66_field_back`, `C66_field_survives`, `C66_material_back`, `C66_material_blank_refuted`, `C66_material_no_number_refuted`, `C66_material_survives`, `C66_material_unit_refuted`, `C68_comment_refuted`, `C68_in_full`, `C73_angle_in_range`, `C73_around_mean`, `C73_full_circle`, `C73_large_angle_hangs`, `C73_two_turns`, `C74_exact_grid_complete`, `C74_far_plane_read`, `C74_grid_points_read`, `C74_last_plane_lost`, `C74_map_in_doubles`, `C74_reading_between`, `C74_reading_defined`, `C74_reading_refuted`, `C80_nearest`, `C80_right_edge_throws`, `C81_ends_or_hangs`, `C81_exact_sizes_end`, `C81_hangs`, `C82_centre`, `C82_round_trip`, `C83_barrel`, `C83_calorimeter_refuted`, `C83_disk_of_pads`, `C83_disks`, `C83_endcap`, `C83_field`, `C83_ladders`, `C83_material`, `C83_parameters`, `C83_planes`, `C83_settled`, `C84_any_pad`, `C84_centre`, `C84_fpa_any_pad`, `C84_fpa_edge_throws_refuted`, `C84_fpa_nearest_of_centre`, `C84_fpa_pad_below_zero_refuted`, `C84_questions`, `C84_rect_centre_on_pad`, `C85_copies_settle`, `C85_copy_arguments`, `C85_copy_identical`, `C85_copy_loads`, `C85_copy_only_target`, `C85_copy_same`, `C85_copy_unreadable`, `C85_copy_unwritable_refuted`, `C85_print_all`, `C85_print_ftd_refuted`, `C85_print_status`, `C86_fpa_found`, `C86_fpa_lost_refuted`, `C86_fpa_own_distance_refuted`, `C86_rect_found`, `C86_wrong_module_refuted`, `C90_exact`, `C90_extent`, `C90_layers`, `C90_nearest`, `C90_order`, `C90_order_matters_refuted`, `C90_same_place_refuted`, `C90_strict`, `C90_sum`, `C90_units`, `C95_far_points_skipped`, `C95_max_radius_near`, `C95_points_kept`, `C95_points_kept_refuted`, `C97_centre_found`, `C97_centre_found_refuted`, `C97_nearest_inside`, `C98_centre_found`, `C98_nearest_inside`, `C98_pads_fit`, `C98_rows`, `C99_centre_found`, `C99_centre_found_refuted`, `C99_nearest_inside`, `C99_stacked`.


## Findings

Defects of the code that theorems in the `Prop*.v` files exhibit (in the model's terms). The
properties above are stated so that these are part of the statement.

**Pad layouts.** `RectangularPadRowLayout::getNearestPad` never returns for rows of heights
1,1,1,1,10,1,1 at y = 9. A copy of a rectangular layout loses the cached pads of its rows. Negative pad
numbers are accepted and alias other pads. Fixed-pad-size rows are rounded with a tolerance of 0.01, so
pads overlap. The nearest pad of the fixed-pad-size disk depends on how the angle is written; that of the
fixed-pad-angle disk throws on the upper edge and is wrong outside the wedge. Disk `getDistanceToPad` is
not invariant under full turns. The versatile disk counts refused rows in `getNPads`, gets the phi extent
of repeated rows wrong, returns pad 65535 before the start of a row, and moves an offset of a full turn
up instead of down.

**Calorimeters, vectors, surfaces.** The first layer of a calorimeter starts at 0, so an extent can have
rMax < rMin. `operator[]` of a vector out of range shares one static dummy. A flat trapezoid accepts
points far outside. A failed `FillStore` leaves surfaces behind and the same filler can never succeed
later. The destructor of the surface store frees nothing.

**TPC.** `setZPosition` with z <= 0 after the last `setOffset`/`setAngle` leaves a module at the origin
unmirrored (C29). The angle wrap adds where it should subtract. A polar border wider than a full turn makes
a module narrower than its pads (C60). A rotated full ring gets a phi extent of width zero (C59). The phi
range of a moved polar module becomes a turn too wide if a tangent from the origin to the outer circle touches it
exactly at a corner (C59; an origin exactly on the boundary of the area is not covered by the C59 theorems). The plane
extent is stale if a module is moved after it was added (C25). Copying or assigning a TPC never returns
(C28). `isInsidePad` for a given pad denies the centre of a pad at a negative angle if the module is moved or the TPC is
cartesian (C84), and its distance from that centre is reported as that of its edges, so the TPC may name a pad of
another module as the nearest one (C86). getNearestPad of a rectangular layout with offsets ignores nearer pads of other
rows, and getNearestPadOld falls back to the bottom row further than twice the height of the plane from all pads (C87). A polar TPC with rectangular layout throws after changing the state (C61). Assigning a module to itself uses its
deleted layout; a module that changed its number by assignment is accepted twice and deleted twice (C89). The extent of a calorimeter depends on the order of its layers by rounding (C90). An XML element assigned to itself loses its children; assigned from one of its descendants it reads deleted memory (C91). An attribute without name and value hides those after it from going through them, printing and copying (C92). `operator>>` never returns if there is a zero byte in the content of an element, and reads beyond the end of its text for a comment starting with `>` before the root (C93). The const key functions write to the object: two threads calling the same one, or a loop body calling it again, go wrong (C94). The radius of a layer of planar ladders is computed in float: beyond 499 a layer can be skipped for points of its own ladders (C95). A negative index of a handle means the first child, and handles to deleted nodes are not noticed (C96). In very thin rows of a disk layout the reported centre of a pad lies in another row (C97, C99). A point just below the upper limiting angle of a layout of pads of fixed angle can make `getNearestPad` throw (C100). The number of pads overflows for 32768 rows of 65536 pads, although all pad indices differ (C101). Neighbouring pads of fixed angle can leave a double angle between them that is inside the layout and inside no pad (C102).

**Programs.** `mergeXML` ends with status 0 if an exception kept it from writing anything, `testXMLCopy` ends with
status 0 if its output cannot be written, because `createXMLFile` does not look at what `SaveFile` returns (C85).

**Rounding in the rectangular layout.** With rows of one height, where the model over the reals always ends, the
row search of `getNearestPad` never ends for some points where two rows meet, e.g. heights 1.2 from y = 1 at y = 2.2
(C81). Just left of the right edge it may throw `std::out_of_range`, e.g. three pads on [0,1] at x = 1 - 2^-53 (C80).

**Large angles.** The loops over turns never end for angles above 2^56 (C73).

**FTD and ladders.** `getEquivLayer` assumes seven disks; several look-ups always fail; `zsign0` is
truncated to an int. Ladder detectors: points with x = 0, y < 0 are never found (C62); one or two ladders
give distance 0 (C63); intersections from the origin without gap and of ladders at negative z are wrong
(C64); ladder thickness is wrong for every phi0 other than pi/2 and negative in a corner (C42).

**Material maps and budgets.** A range of one point with steps, or no steps on a range of length one or
more, is undefined behaviour (C45). In double arithmetic the last plane of a map can be left at zero, for
instance for 0 to 100 in nine parts (C74). With one part in a coordinate a reading inside the range can be 0/0 (-12 to 54.9 at
10.13), and one next to the upper plane can ignore that plane (-2 to 3 at 2.999): the lower neighbour is rounded to
just below the range, and then only one neighbour, the lower one, is used (C74). The factory ignores the coordinate system and returns null after a
failure (C46). Names can come back empty, lengths from an uninitialised state, a failed computation is
remembered as a success (C47). `getLocalPosition` of the TGeo plugin answers in the frame of whatever was
asked before and does not notice points outside (C69). Names returned by reference change with the next
call (C69). The lists of the CGA plugin are static and never cleared on GEAR's side (C72).

**Printing.** An FTD of more than seven layers ends the printing of a geometry with an exception (C75). SIT and
SET are printed twice, headings may be printed for detectors that are not there (C75). A material leaves the
stream in another format (C76). Long numbers or info texts overrun a buffer of 1024 characters (C77). Cell
sizes of layers that are as thick as the one before are not printed (C78).

**Handlers.** One handler registered for two types is deleted twice; `getHandler` inserts null entries.

**XML text.** Text that looks like a character reference changes (C31). A value, comment or text that is
not closed reads beyond the buffer (C41). A UTF-8 file that ends with EF within a tag is never finished
(C88). Text after the root element is ignored; a repeated attribute
ends the parse without an error (C65).

**Files.** Strings with blanks are cut, empty strings and vectors vanish (C32). Ten significant digits
are kept (C33). Gaps between calorimeter layers are lost; slowly drifting layers collapse to the last
one (C34), and further copies may change further layers (C83). Fixed-pad-angle files never load (`nPadInRow`/`nPadsInRow`), versatile files come back
with other angles, repeated rectangular rows are lost (`RepeatRows`/`repeatRows`) (C35). The TPC loses
drift velocity and most of the readout frequency (C36). Tracker planes never load; other ladder types and
telescope types are written but cannot be read; telescope rotations and separate resolutions are lost
(C37). A calorimeter whose shape does not fit its name is read into another place, and of two of the same
shape one is lost (C38). A failed `createGearMgr` keeps a half-filled manager which every later call
returns; detectors without type are skipped silently (C39). Merging loses everything of the recessive file
outside of three sections, dereferences null for missing sections or childless named elements, and a
second merge with file 1 dominant swaps the files (C40). A malformed number of a material silently makes
the following ones 0 (C66). A comment reading `modules` hides later sections (C68).

## Tests against wrong programs

`seeded/LOG.jsonl` has one line per edit of the model in a scratch copy, made the way a realistic bug
would change the program, with the theorems that no longer prove. Edits after which every theorem
still proved are listed with what was tightened, or with why the edit does not break the claim.
