{"id": "C01", "title": "Named parameters: last write wins, per type", "statement": "After any sequence of setIntVal/setDoubleVal/setStringVal/setIntVals/setDoubleVals/setStringVals calls on a parameter object, getX(key) returns the value of the last setX call with that key and the same type X; a call of another type or another key never changes it. If there was no such call the getter throws UnknownParameterException naming the key.", "quantifier": "every finite history of set calls, every key string, every one of the six types and every value", "why_tests_cant": "the claim ranges over all call histories and all strings; a unit test fixes one history", "anchors": ["src/gearimpl/GearParametersImpl.cc: GearParametersImpl::get*/set*", "include/gear/gearimpl/GearParametersImpl.h"]}
{"id": "C02", "title": "Named parameters: key listings are exact and sorted", "statement": "After any history of set calls, get<Type>Keys lists exactly the keys set with that type, each once, in strictly increasing (byte-lexicographic) order.", "quantifier": "every finite history of set calls and every type", "why_tests_cant": "ranges over all histories; order and absence of duplicates have to hold for all of them", "anchors": ["src/gearimpl/GearParametersImpl.cc: getIntKeys .. getStringVecKeys"]}
{"id": "C03", "title": "Detector manager: each slot is an independent register", "statement": "After any sequence of manager setter calls, each getter returns the object given to the last call of the matching setter and throws UnknownParameterException if no such call (with a non-null object) happened; setting one detector never changes what another getter returns. The generic-parameter slots behave the same per key, and getGearParameterKeys lists exactly the keys in increasing order. getDetectorName throws until a non-empty name is set.", "quantifier": "every finite history of manager calls, all slots, all keys", "why_tests_cant": "unbounded call histories over ~25 slots", "anchors": ["src/gearimpl/GearMgrImpl.cc: GearMgrImpl::set*/get*"]}
{"id": "C04", "title": "Forward calorimeters always carry a beam crossing angle", "statement": "After setLcalParameters, setLHcalParameters or setBeamCalParameters with a valid object, that object has a double parameter beam_crossing_angle. If it was already present its value is unchanged, otherwise it is 0.0; no other parameter of the object changes.", "quantifier": "every parameter object and every manager state", "why_tests_cant": "holds for all parameter contents", "anchors": ["src/gearimpl/GearMgrImpl.cc: setLcalParameters, setLHcalParameters, setBeamCalParameters"]}
{"id": "C05", "title": "Manager destruction frees what it was given exactly once", "statement": "Objects handed to the manager become its property: over any history of setter calls followed by destruction, no object is deleted twice and none is used after deletion provided no object is handed over twice; an object still registered at destruction is deleted. What does not hold (and is shown not to hold): replaced objects of the plain slots are never deleted (leak), registering one object in two slots deletes it twice, and setting the same TPC/generic object again leaves a dangling pointer.", "quantifier": "every history of manager setter calls with arbitrary aliasing of the objects handed over", "why_tests_cant": "lifetime errors depend on the whole call history and aliasing pattern", "anchors": ["src/gearimpl/GearMgrImpl.cc: ~GearMgrImpl, setTPCParameters, setGearParameters, setVXDParameters ..."]}
{"id": "C06", "title": "Material registry: a name is bound once", "statement": "registerSimpleMaterial binds a name at most once: a second registration with the same name throws and leaves the registry unchanged; getSimpleMaterial returns the first registered material for the name and throws for unknown names; getMaterialNames lists exactly the registered names in increasing order.", "quantifier": "every history of register calls and every name", "why_tests_cant": "unbounded histories", "anchors": ["src/gearimpl/GearMgrImpl.cc: registerSimpleMaterial, getSimpleMaterial, getMaterialNames"]}
{"id": "C07", "title": "Pad index coding is lossless", "statement": "For every row 0..65535 and pad 0..65535 the combined pad index determines row and pad: getRowNumber and getPadNumber return exactly what was packed, and different (row,pad) pairs get different indices. Outside that range it is shown to fail (pad 65536 aliases pad 0; a negative pad number is accepted and aliases 65535).", "quantifier": "all rows and pads of the 16-bit ranges; all 32-bit ints for the negative result", "why_tests_cant": "2^32 pairs; the boundary behaviour needs all integers", "anchors": ["src/gearimpl/RectangularPadRowLayout.cc: getPadIndex,getRowNumber,getPadNumber", "src/gearimpl/FixedPadSizeDiskLayout.cc", "src/gearimpl/FixedPadAngleDiskLayout.cc", "src/gearimpl/VersatileDiskRowLayout.cc"]}
{"id": "C08", "title": "Rectangular layout: rows tile the plane", "statement": "After any sequence of accepted addRow calls, rows are stacked in y without gap or overlap starting at the initial yMin, the plane extent's yMax is the top of the last row, and every row's pads lie inside the row's x range. getNRows is the number of rows and getNPads is the sum of the rows' pads. An addRow call rejected because the row height is smaller than the pad height still increases getNPads (defect, shown).", "quantifier": "every history of addRow calls with arbitrary arguments", "why_tests_cant": "unbounded histories with real-valued arguments", "anchors": ["src/gearimpl/RectangularPadRowLayout.cc: addRow, getNPads, getNRows, getPlaneExtent"]}
{"id": "C09", "title": "Rectangular layout: getNearestPad finds the pad under the point", "statement": "For every layout whose pads fill the height of their rows and every point, whenever getNearestPad returns it returns the pad whose cell contains the point (points outside the plane are first moved to its edge); with rows of equal height it always returns. Shown to fail: with rows of different heights the search may never end, and when the pads of the first or last row are lower than the row the search reads a row that does not exist.", "quantifier": "all layouts built by addRow and all points of the plane", "why_tests_cant": "continuous input domain and arbitrary layouts", "anchors": ["src/gearimpl/RectangularPadRowLayout.cc: getNearestPad"]}
{"id": "C10", "title": "Rectangular layout: neighbour navigation", "statement": "For every valid pad, getRightNeighbour and getLeftNeighbour stay in the row, move by exactly one pad, are inverse to each other, and throw exactly when the pad is the last or first one.", "quantifier": "all layouts and all valid pads", "why_tests_cant": "all layouts and pads", "anchors": ["src/gearimpl/RectangularPadRowLayout.cc: getRightNeighbour, getLeftNeighbour"]}
{"id": "C11", "title": "Pad centres lie inside their pads", "statement": "For every valid pad the centre returned by getPadCenter satisfies isInsidePad for this pad and getDistanceToPad 0, for rectangular and disk layouts.", "quantifier": "all layouts and all valid pads", "why_tests_cant": "continuous parameters", "anchors": ["src/gearimpl/RectangularPadRowLayout.cc: getPadCenter,isInsidePad,getDistanceToPad", "src/gearimpl/FixedPadSizeDiskLayout.cc", "src/gearimpl/FixedPadAngleDiskLayout.cc"]}
{"id": "C12", "title": "Layout clones answer like the original", "statement": "clone() of a layout returns an object giving the same answers to every query. It is shown to fail for getPadsInRow on a cloned rectangular layout and to hold for the three disk layouts.", "quantifier": "all layouts and all queries", "why_tests_cant": "all layouts", "anchors": ["src/gearimpl/RectangularPadRowLayout.cc: copy_and_assign, getPadsInRow"]}
{"id": "C13", "title": "Rectangular layout: repeatRows repeats the row pattern", "statement": "repeatRows(n) with n >= 1 turns the existing pattern of k rows into n*k rows that continue the stacking, with identical geometry per period, and a second call is refused. repeatRows(0) does not stop after 0 repetitions (shown).", "quantifier": "all layouts and all n", "why_tests_cant": "unbounded n and layouts", "anchors": ["src/gearimpl/RectangularPadRowLayout.cc: repeatRows"]}
{"id": "C14", "title": "Fixed-pad-size disk: pads fit", "statement": "For every constructed layout with at least one pad per row, the pads of a row exactly divide the phi range, and the available arc per pad at the row centre is at least padWidth+padGap; one more pad would not fit. Rows exactly divide the radial range, and the number of rows is the largest that fits with the tolerance of 0.01 the code grants (or the smaller number asked for). Because of the tolerance pads of neighbouring rows may overlap (shown).", "quantifier": "all constructor arguments", "why_tests_cant": "continuous parameters", "anchors": ["src/gearimpl/FixedPadSizeDiskLayout.cc: FixedPadSizeDiskLayout ctor"]}
{"id": "C15", "title": "Disk layouts: the nearest pad of a pad's centre is that pad", "statement": "For every valid pad, getNearestPad at the pad's centre returns exactly that pad (fixed-pad-size and fixed-pad-angle disks).", "quantifier": "all layouts and pads", "why_tests_cant": "continuous parameters", "anchors": ["src/gearimpl/FixedPadSizeDiskLayout.cc: getNearestPad", "src/gearimpl/FixedPadAngleDiskLayout.cc: getNearestPad"]}
{"id": "C16", "title": "Disk layouts: neighbour navigation wraps exactly on full circles", "statement": "Left is the next higher pad, right the next lower one; on a full circle the ends are connected and left/right are total inverse bijections of the row; on a partial disk they throw exactly at the ends.", "quantifier": "all layouts and pads", "why_tests_cant": "all layouts", "anchors": ["src/gearimpl/FixedPadSizeDiskLayout.cc", "src/gearimpl/FixedPadAngleDiskLayout.cc", "src/gearimpl/VersatileDiskRowLayout.cc: getRightNeighbour,getLeftNeighbour"]}
{"id": "C17", "title": "Fixed-pad-angle disk: every point inside the plane has a nearest pad", "statement": "For every point strictly inside the plane getNearestPad returns the pad whose cell contains it; on the upper phi edge (which isInside accepts) getNearestPad throws (defect, shown); everywhere else an existing pad is returned, but outside the wedge it is not always a nearest one (shown).", "quantifier": "all layouts and all points", "why_tests_cant": "continuous domain", "anchors": ["src/gearimpl/FixedPadAngleDiskLayout.cc: getNearestPad"]}
{"id": "C18", "title": "Versatile disk: rows stack outward and pads fit in the circle", "statement": "After any history of addRow calls the rows are stacked radially without gap or overlap, the extent's rMax is the top of the last row, and no accepted row needs more than 2*pi of angle; addRow succeeds exactly when its documented demands are met. The number of pads is the sum over the rows unless a row was refused (its pads are counted, shown), and the phi extent is the hull of the rows unless rows were repeated (shown to be wrong then).", "quantifier": "every history of addRow calls", "why_tests_cant": "unbounded histories", "anchors": ["src/gearimpl/VersatileDiskRowLayout.cc: addRow, Row ctor"]}
{"id": "C19", "title": "Calorimeter layers are stacked without gaps", "statement": "After any sequence of addLayer calls the i-th layer starts exactly where layer i-1 ends (the first at 0 or at the given position), so its distance is the sum of the previous thicknesses, and the outer extent equals the end of the last layer. positionLayer places at the given distance and following addLayer calls continue from its end.", "quantifier": "every history of layer additions", "why_tests_cant": "unbounded histories", "anchors": ["src/gearimpl/LayerLayoutImpl.cc: addLayer, positionLayer", "src/gearimpl/CalorimeterParametersImpl.cc: getExtent"]}
{"id": "C20", "title": "Measurement surface coordinates: local and global are inverse isometries", "statement": "getGlobalPoint(getLocalPoint(p)) = p and vice versa for every point; distances are preserved.", "quantifier": "all placements (translation and rotation) and all points", "why_tests_cant": "continuous domain", "anchors": ["src/gearsurf/CartesianCoordinateSystem.cc"]}
{"id": "C21", "title": "Surface boundaries", "statement": "A rectangle boundary accepts exactly the local points with |w| within tolerance and (u,v) within the alpha-rotated rectangle; a trapezoid exactly those between its four sides (one of height 0 accepts far away points, shown); a surface's global test equals the local test at the transformed point; a surface without boundary accepts all points.", "quantifier": "all boundary parameters and points", "why_tests_cant": "continuous domain", "anchors": ["src/gearsurf/BoundaryRectangle.cc", "src/gearsurf/BoundaryTrapezoid.cc", "src/gearsurf/MeasurementSurface.cc"]}
{"id": "C22", "title": "Measurement surface store is filled at most once and is an exact map", "statement": "Over any history of fill calls each ID stays bound to the first surface added with it, a fill succeeds exactly if all its IDs are new and distinct, unknown IDs throw, and once a fill succeeded no second fill succeeds and contents and filler name stay. A fill failing on a duplicate leaves earlier surfaces in the store while isFilled stays false, so a retry of the same filler can never succeed and another filler can mix its surfaces with the left-over ones (shown). The store never deletes its surfaces (shown).", "quantifier": "all histories of fill calls including failing ones", "why_tests_cant": "crash/exception points inside a bulk fill over arbitrary histories", "anchors": ["src/gearsurf/MeasurementSurfaceStore.cc"]}
{"id": "C23", "title": "Vector algebra", "statement": "dot/cross/unit/r/phi/theta of Vector3D obey the usual laws: cross product is orthogonal to both factors and anticommutative, unit vectors have length 1, component access agrees with x,y,z, cylindrical and spherical constructors invert the accessors.", "quantifier": "all vectors", "why_tests_cant": "continuous domain", "anchors": ["include/gear/gearimpl/Vector3D.h"]}
{"id": "C24", "title": "TPC modules: IDs are unique keys", "statement": "After any history of calls (addModule with any pointer, setPadLayout, all other setters, calls on the modules) the modules of a TPC have pairwise different IDs and the coordinate type of the TPC; getModule(id) returns exactly the module with that ID and throws if there is none; addModule appends a module of the right type with a new ID and refuses NULL, a wrong type or a used ID without changing the TPC; setPadLayout creates a module 0 only in a TPC without modules; the single-module interface answers exactly for TPCs with one untransformed module.", "quantifier": "all histories of calls on a TPC and its modules", "why_tests_cant": "unbounded histories", "anchors": ["src/gearimpl/TPCParametersImpl.cc: addModule,getModule,getModules,setPadLayout,getPadLayout,getReadoutFrequency"]}
{"id": "C25", "title": "TPC plane extent is the bounding box of the modules", "statement": "If modules are not changed any more once added, then after any history of calls the plane extent is the smallest box containing all module extents, and asking for it without modules throws. A module moved after it was added leaves the plane extent as it was.", "quantifier": "all histories", "why_tests_cant": "unbounded histories", "anchors": ["src/gearimpl/TPCParametersImpl.cc: addModule, getPlaneExtent"]}
{"id": "C26", "title": "TPC nearest module / pad is a true minimum", "statement": "getNearestModule returns a module whose distance to the point is minimal among all modules, the first such in insertion order, and throws for a TPC without modules; getNearestPad likewise among the modules' nearest pads; a point is inside the TPC's modules (pads) exactly if it is inside one of them.", "quantifier": "all module sets and points", "why_tests_cant": "all module sets", "anchors": ["src/gearimpl/TPCParametersImpl.cc: getNearestModule,getNearestPad,isInsideModule,isInsidePad"]}
{"id": "C27", "title": "TPC cathode position and halves", "statement": "With modules on both sides the cathode lies midway between the planes of the first module of each side, with modules on one side only it lies one drift length from the plane towards the other side, also after later changes of the drift length; queries with a z coordinate consider exactly the modules on the side of the cathode the point is on, and throw if there are none.", "quantifier": "all module histories and points", "why_tests_cant": "unbounded histories", "anchors": ["src/gearimpl/TPCParametersImpl.cc: addModule, setMaxDriftLength, getNearestModule(x,y,z), isInsideModule(x,y,z)"]}
{"id": "C28", "title": "Copying a TPC description", "statement": "Copying a TPCParameters object should give an equal object. It is shown that copy construction and assignment never return for any object. Copies of single modules do return and answer every query like the original.", "quantifier": "all objects", "why_tests_cant": "non-termination for every input cannot be tested", "anchors": ["src/gearimpl/TPCParametersImpl.cc: copy_and_assign, operator=", "src/gearimpl/TPCModuleImpl.cc: clone"]}
{"id": "C29", "title": "TPC module coordinate transforms place the module where it was mounted and are inverse", "statement": "Whatever calls were made on a module, it reports what was asked for last, and localToGlobal maps a local point to the mounted point (rotated by the angle, moved by the offset, mirrored on the negative endplate), for all four combinations of cartesian and polar layout and TPC; globalToLocal is its inverse. The z position has to be set before the last setOffset or setAngle call: it is shown that otherwise a module at the origin is not mirrored.", "quantifier": "all module histories, placements and points", "why_tests_cant": "continuous domain, unbounded histories", "anchors": ["src/gearimpl/TPCModuleImpl.cc: globalToLocal, localToGlobal, setOffset, setAngle, setZPosition"]}
{"id": "C30", "title": "GlobalPadIndex ordering is a strict total order", "statement": "operator< on GlobalPadIndex is irreflexive, transitive and total with respect to operator==, so it can key ordered containers; it orders by module first, then by pad.", "quantifier": "all index pairs/triples", "why_tests_cant": "all integers", "anchors": ["include/gear/gearimpl/GlobalPadIndex.h"]}
{"id": "C31", "title": "XML escaping is lossless", "statement": "Every attribute value that contains no '&#x' sequence and no NUL byte, once written to a file and parsed back, is byte-for-byte unchanged, whatever quotes, angle brackets, ampersands, control or high bytes it contains; whole documents of elements, comments and normalised text come back unchanged too. A value with a hexadecimal character reference in it is shown never to survive.", "quantifier": "all byte strings, all documents", "why_tests_cant": "unbounded strings and trees", "anchors": ["src/gearxml/tinyxml.cc: PutString, TiXmlAttribute::Print, TiXmlElement::Print, TiXmlDocument::SaveFile", "src/gearxml/tinyxmlparser.cc: ReadText, GetEntity, TiXmlAttribute::Parse, TiXmlElement::Parse, ReadValue"]}
{"id": "C32", "title": "Parameter save/load", "statement": "A saved and reloaded parameter set contains exactly the same int, double, string and vector parameters, under exactly these conditions: strings are a single space-free non-empty token, vectors are non-empty, vector strings are tokens, and doubles are ones that ten significant digits identify. Every violated condition is shown to lose data; other doubles come back with a relative error below 5.001e-10.", "quantifier": "all parameter sets", "why_tests_cant": "unbounded contents", "anchors": ["src/gearxml/GearParametersXML.cc"]}
{"id": "C33", "title": "Numbers survive as text", "statement": "Every 32-bit int written to a file is read back equal; every double that is zero or neither extremely small nor extremely large is read back with relative error below 5.001e-10, and writing what was read produces the same text. The doubles read back exactly are those nearest to a decimal number with ten significant digits; others are changed, and the largest double becomes infinite (shown).", "quantifier": "all ints and all doubles", "why_tests_cant": "2^32 / 2^64 values", "anchors": ["src/gearxml/tinyxml.cc: SetAttribute(int), SetDoubleAttribute", "src/gearxml/GearParametersXML.cc"]}
{"id": "C34", "title": "Calorimeter layers survive save/load", "statement": "A calorimeter that is saved and loaded has the same type, symmetry order, offset angle and number of layers. Its list of layers (thicknesses, absorber thicknesses, cell sizes and positions) is the same if and only if the layers follow each other without gaps from the inner radius (barrel) or zMin (endcap) on, consecutive layers whose sizes differ by less than 0.0001 are exactly equal, and the numbers have at most ten significant digits; then the extent is the same too. With slowly drifting layers the error is unbounded, and gaps are lost (shown).", "quantifier": "all calorimeters, histories of layer calls and parameters", "why_tests_cant": "unbounded lists of layers", "anchors": ["src/gearxml/CalorimeterParametersXML.cc", "src/gearimpl/LayerLayoutImpl.cc", "src/gearimpl/CalorimeterParametersImpl.cc"]}
{"id": "C35", "title": "Pad layouts survive save/load", "statement": "A rectangular layout whose rows were not repeated, and whose numbers have at most ten significant digits, answers every question about rows and pads as before after saving and loading. A disk of equal pads is loaded as a clone of the saved one if and only if its numbers have at most ten digits. Shown to fail: a rectangular layout with repeated rows always loses rows; a rectangular layout may be saved to a file that cannot be loaded; a full ring of equal pads, the default, never comes back unchanged and may lose a pad; a disk of equal angles is never loaded; a versatile disk comes back with pad pitches divided by the radius once more and without its pad widths.", "quantifier": "all layouts and histories of calls", "why_tests_cant": "unbounded histories, all real sizes", "anchors": ["src/gearxml/RectangularPadRowLayoutXML.cc", "src/gearxml/FixedPadAngleDiskLayoutXML.cc", "src/gearxml/FixedPadSizeDiskLayoutXML.cc", "src/gearxml/VersatileDiskRowLayoutXML.cc"]}
{"id": "C36", "title": "What becomes of a TPC in a file", "statement": "A TPC in any state whose layouts can be written and mounted is loaded with the same modules in the same order: same IDs and coordinate type, the layout that comes back of each layout (C35), offset, angle, z position, border width and drift length rounded to ten digits, so that modules are where they were if and only if these numbers are short. Shown to fail: the drift velocity is lost; readout frequencies come back as one digit (1e7 as 1); a module that forgot its side (C29) is mirrored after loading; a drift length of -1 becomes 0; TPCs with disks of equal angles, or polar ones with rectangles, are never loaded. A file of the old form gives one module at the origin.", "quantifier": "all histories of the TPC and of its modules, all parameters", "why_tests_cant": "all call histories and all numbers", "anchors": ["src/gearxml/TPCParametersXML.cc", "src/gearxml/TPCModuleXML.cc"]}
{"id": "C37", "title": "Tracker descriptions survive save/load", "statement": "A ladder detector (VXD/SIT/SET) or the forward tracker (FTD) that is saved and loaded has every number back in its own place, and it is the same if and only if its type is one the file format knows, it has at most seven disks (FTD), and its numbers are kept by the number format. A beam telescope (SiPlanes) comes back the same exactly if in addition no sensitive part is rotated, the resolutions in x and y equal the common one, and the device under test fits the type. Shown to fail: rotations and separate resolutions of sensitive parts are lost; a device under test is lost; unknown types are written but cannot be loaded; loading saved TrackerPlanes is undefined behaviour for every content.", "quantifier": "all layer lists, numbers and parameters", "why_tests_cant": "unbounded lists", "anchors": ["src/gearxml/ZPlanarParametersXML.cc", "src/gearxml/FTDParametersXML.cc", "src/gearxml/SiPlanesParametersXML.cc", "src/gearxml/TrackerPlanesParametersXML.cc"]}
{"id": "C38", "title": "A saved geometry reloads with each detector in its own slot", "statement": "A manager filled by any setter calls can be saved and the file loaded if and only if every detector in it can be saved and loaded on its own. Each slot then holds what came back of the same slot or is empty as that was, every parameter set and material is found under its name, and, if every calorimeter has the shape of its slot (barrel in barrel slots, endcap in endcap slots), so are the calorimeters; if each part survives on its own and the detector has a name, all getters answer as before. Shown to fail: a calorimeter of the other shape comes back in another slot, of two calorimeters leading to one slot the first is lost, an unnamed detector is called Unknown, and no file of a manager with tracker planes can be loaded.", "quantifier": "all combinations of present detectors", "why_tests_cant": "2^20 combinations", "anchors": ["src/gearxml/GearXML.cc: createXMLFile, createGearMgr", "src/gearxml/CalorimeterParametersXML.cc: fromXML"]}
{"id": "C39", "title": "Loading a geometry reports failure every time", "statement": "The first createGearMgr call on a reader returns a manager if and only if the file has a root element all parts of which can be read, and the manager is what the setter calls the file stands for, in file order, make of a new manager; each getter answers with the last call for its slot. Elements without a type and calorimeters and ladder detectors with unknown names are left out without an error. Shown to fail: after a first call that throws, every later call on the same reader returns, without an error and whatever the file is then, the manager as filled up to the part that could not be read.", "quantifier": "all file contents and call sequences", "why_tests_cant": "call histories and failure points", "anchors": ["src/gearxml/GearXML.cc: createGearMgr"]}
{"id": "C40", "title": "Merging: the dominant file is never overwritten and nothing is lost", "statement": "A merged file is the dominant file with attributes and elements added behind those it had, none changed. Of the global, detectors and materials parts of the other file it contains everything without a counterpart. For files whose repeated elements agree and whose common named elements are not empty the result is exactly the union tree, elements being identified by their name attribute or else their tag and position. Shown to fail: everything outside of the three parts (such as the magnetic field) is lost; a missing part or an empty named element in both files is undefined behaviour; repeated elements missing in the dominant file make merging fail; repeated elements that do not stand together are lost; a second merge with file 1 dominant takes file 2 as dominant.", "quantifier": "all pairs of documents and sequences of calls", "why_tests_cant": "unbounded trees", "anchors": ["src/gearxml/MergeXML.cc", "include/gear/gearxml/MergeXML.h"]}
{"id": "C41", "title": "Loading any file terminates without undefined behaviour", "statement": "Apart from keeping track of lines and columns (C88), parsing a byte string always ends, and yields a document or an error if every quoted value, comment, character reference and multi-byte character in it is complete. Shown to fail otherwise: a file that ends inside a quoted value or a comment, or that has an unclosed character reference in a value, makes the parser use an invalid pointer; a stray ampersand is silently dropped.", "quantifier": "all byte strings", "why_tests_cant": "unbounded inputs", "anchors": ["src/gearxml/tinyxmlparser.cc: GetEntity, ReadText, TiXmlAttribute::Parse, TiXmlElement::Parse, TiXmlComment::Parse, TiXmlDocument::Parse", "src/gearxml/tinyxml.cc: TiXmlDocument::LoadFile"]}
{"id": "C42", "title": "Layer values and angles of planar ladders", "statement": "For planar-ladder detectors the layer getters return what was given to addLayer and throw for other indices; the maximum radius is the largest distance from the beam axis of any point of the layer; the inner start and end angles point at the edges of the inner face of the first ladder, the outer ones at those of the outer face. The thickness under an angle is the length inside the plate. Shown to be violated: the outer angles of ladder and sensitive part are exchanged, the thickness is negative in one corner and wrong for every first angle other than pi/2.", "quantifier": "all sequences of addLayer calls, indices and angles", "why_tests_cant": "continuous domain", "anchors": ["src/gearimpl/ZPlanarLayerLayout.cc", "include/gear/gearimpl/ZPlanarLayerLayoutImpl.h"]}
{"id": "C43", "title": "FTD disks: mirrored layers and petals", "statement": "With seven disks, indices 0..6 are the disks as added and 7..13 their mirror images at negative z: every getter returns what was given to addLayer, supports and sensors of disk i+7 are at minus the z of those of disk i, the petals alternate around the z position of the disk and are equally spaced in phi, the sensors lie on the support (front ones towards the interaction point, back ones away from it), other sensor numbers and disk indices throw. For any other number of disks exactly the indices N..6 (N<7) or 7..N-1 (N>7) throw although they are documented; getMaxRadius throws for mirrored disks; a fractional offset sign is cut.", "quantifier": "all lists of disks, all indices, petals and sensors", "why_tests_cant": "unbounded lists of disks with real parameters", "anchors": ["src/gearimpl/FTDLayerLayoutImpl.cc", "include/gear/gearimpl/FTDLayerLayoutImpl.h"]}
{"id": "C44", "title": "FTD point lookup", "statement": "getLayerIndex, getSensitiveIndex, getPetalIndex and isPointInFTD should locate points; the exact truth, shown here, is that they report 'not found' for every point of every detector.", "quantifier": "all points and detectors", "why_tests_cant": "all points", "anchors": ["src/gearimpl/FTDParametersImpl.cc"]}
{"id": "C45", "title": "Material map interpolation is bounded and exact on the grid", "statement": "A constructed map holds the material between the origin and each grid point. Interpolated values lie between the minimum and maximum of the neighbouring grid values and equal the grid value on grid points; points outside the map, and ranges outside the coordinates' domain, throw. Shown to fail (undefined behaviour) for point-like ranges with steps and for ranges of length 1 or more without steps.", "quantifier": "all maps and points", "why_tests_cant": "continuous domain", "anchors": ["src/geartgeo/MaterialMap.cc"]}
{"id": "C46", "title": "Material map cache returns the requested map", "statement": "Two requests to the map factory return the same map exactly when they ask for the same grid, and the map was made for that grid. Shown to fail for requests that differ only in the coordinate system, and for repeated requests whose construction failed.", "quantifier": "all request histories", "why_tests_cant": "histories", "anchors": ["src/geartgeo/MaterialMapFactory.cc"]}
{"id": "C47", "title": "Material queries between two points do not depend on earlier queries", "statement": "Every distance query returns what a fresh object would return for the same two points. Holds after any history if the last pair of different points was another one, and after histories without list queries between equal points for queries that do not fail; shown to fail otherwise.", "quantifier": "all histories of queries", "why_tests_cant": "cache state depends on the whole history and failure points", "anchors": ["src/geartgeo/TGeoGearDistanceProperties.cc"]}
{"id": "C48", "title": "Radiation/interaction lengths are the sum over crossed materials", "statement": "getNRadlen and getNIntlen are the sums of thickness over radiation (interaction) length of the crossed materials, non-negative, and consistent with getMaterialThicknesses; the thicknesses add up to the distance. Shown to fail when a navigator step is shorter than 0.00001.", "quantifier": "all material sequences", "why_tests_cant": "unbounded sequences", "anchors": ["src/geartgeo/TGeoGearDistanceProperties.cc: getNRadlen,getNIntlen"]}
{"id": "C49", "title": "Cell IDs pack two 32-bit words losslessly", "statement": "The 64-bit cell ID determines both 32-bit ids.", "quantifier": "all pairs of 32-bit ids", "why_tests_cant": "2^64 pairs", "anchors": ["src/gearcga/CGAGearPointProperties.cc: getCellID"]}
{"id": "C50", "title": "XML handler registry", "statement": "The handler of a detector type is the one registered last, null registrations are ignored, unknown types yield no handler, and handlers are deleted exactly once. Shown to fail when one handler is registered twice.", "quantifier": "all registration histories", "why_tests_cant": "histories", "anchors": ["src/gearxml/XMLHandlerMgr.cc"]}
{"id": "C51", "title": "All pad layouts: getPadsInRow lists exactly the row's pads", "statement": "After any history of calls (including earlier getPadsInRow calls, whose results are cached) getPadsInRow(row) lists the indices of the pads 0..n-1 of the row in order, and is empty for rows that do not exist.", "quantifier": "every layout, every history of addRow/repeatRows/getPadsInRow calls and every row number", "why_tests_cant": "the result depends on a cache filled by earlier calls and later extended by addRow", "anchors": ["src/gearimpl/RectangularPadRowLayout.cc: getPadsInRow", "src/gearimpl/FixedPadSizeDiskLayout.cc: getPadsInRow", "src/gearimpl/FixedPadAngleDiskLayout.cc: getPadsInRow", "src/gearimpl/VersatileDiskRowLayout.cc: getPadsInRow"]}
{"id": "C52", "title": "Rectangular layout: inside test and distance describe the metal of the pad", "statement": "isInsidePad(x,y,pad) is true exactly for the points of the closed metal rectangle around the pad centre and getDistanceToPad is the Euclidean distance to that rectangle.", "quantifier": "all layouts, pads and points", "why_tests_cant": "continuous domain, nine cases of position", "anchors": ["src/gearimpl/RectangularPadRowLayout.cc: isInsidePad,getDistanceToPad,distanceToBox"]}
{"id": "C53", "title": "Fixed-pad-size disk: getNearestPad finds a pad of minimal distance", "statement": "For a layout with pads in every row getNearestPad returns an existing pad for every point; inside the phi range it is the cell of the point, and within half a turn of the middle of the wedge no pad has a smaller getDistanceToPad. Just before phi=0 the answer depends on how the angle is written (shown).", "quantifier": "all layouts and all points", "why_tests_cant": "continuous domain, nine cases of position, comparison with every pad", "anchors": ["src/gearimpl/FixedPadSizeDiskLayout.cc: getNearestPad,getDistanceToPad"]}
{"id": "C54", "title": "Disk layouts: getDistanceToPad is the Euclidean distance to the pad", "statement": "For angles within one turn of the pad getDistanceToPad is the minimum of the Euclidean distances from the point to the points of the keystone shaped pad cell. An angle written with a full turn more gives a different answer (shown).", "quantifier": "all layouts, pads and points", "why_tests_cant": "minimum over a continuous set", "anchors": ["src/gearimpl/FixedPadSizeDiskLayout.cc: getDistanceToPad", "src/gearimpl/FixedPadAngleDiskLayout.cc: getDistanceToPad", "src/gearimpl/VersatileDiskRowLayout.cc: getDistanceToPad"]}
{"id": "C55", "title": "Versatile disk: getNearestPad returns the cell of the point", "statement": "For rows that start at a non-negative angle and lie within one turn, getNearestPad of a point in a row returns the cell of the point, and that of a pad centre the pad. A point just before the start of a row gets the index of the non-existing pad 65535, and of rows at negative angles only the first and last pad are ever found (both shown).", "quantifier": "all histories of addRow calls and all points", "why_tests_cant": "histories and a continuous domain", "anchors": ["src/gearimpl/VersatileDiskRowLayout.cc: getNearestPad"]}
{"id": "C56", "title": "Disk layouts: the inside tests describe the pads", "statement": "isInsidePad for a given pad is true exactly for the points of that pad; isInsidePad without a pad is true exactly on the union of the pads for the fixed-angle disk, never true outside all pads for the fixed-size disk, and exact for versatile disks whose rows were added one by one within one turn. The cases where the versatile disk deviates are shown.", "quantifier": "all layouts, pads and points", "why_tests_cant": "continuous domain", "anchors": ["src/gearimpl/FixedPadSizeDiskLayout.cc: isInsidePad", "src/gearimpl/FixedPadAngleDiskLayout.cc: isInsidePad", "src/gearimpl/VersatileDiskRowLayout.cc: isInsidePad"]}
{"id": "C57", "title": "Fixed-pad-angle disk: the layout is the one asked for", "statement": "The layout has exactly the numbers of rows and pads, radial and angular range given to the constructor, and all rows and pads have equal size.", "quantifier": "all constructor arguments", "why_tests_cant": "continuous parameters", "anchors": ["src/gearimpl/FixedPadAngleDiskLayout.cc: FixedPadAngleDiskLayout ctor"]}
{"id": "C58", "title": "Distance to a TPC module is Euclidean", "statement": "getDistanceToModule is the Euclidean distance of the point to the area of the module (pad plane plus border, as mounted) and isInsideModule holds exactly for the points of that area, for all combinations of coordinate types and placements.", "quantifier": "all module histories and points", "why_tests_cant": "continuous domain", "anchors": ["src/gearimpl/TPCModuleImpl.cc: getDistanceToModule, isInsideModule"]}
{"id": "C59", "title": "Module extents are bounding boxes", "statement": "After a setOffset or setAngle call the module and plane extents of a module in a cartesian TPC are the smallest boxes around the mounted areas, for rectangular and for polar layouts. In a polar TPC the extent of a module that is only rotated or mirrored describes exactly the mounted area, and the radii of a moved one are the exact range of distances from the origin. The phi values of a moved one are the exact range of directions in which its area is seen from the origin: if the origin is outside the area, unless a line of sight touches the outer circle exactly at a corner (then the range is shown to be wrong), and the full turn if the origin is in the interior. A full ring that is turned is shown to get an extent of zero width.", "quantifier": "all module histories", "why_tests_cant": "continuous domain", "anchors": ["src/gearimpl/TPCModuleImpl.cc: convertLocalPlaneToGlobalPlaneExtend, calculateGlobalExtentCartesianCartesian, calculateGlobalExtentCartesianPolar, calculateGlobalExtentPolarPolar"]}
{"id": "C60", "title": "Module border", "statement": "The module area is the pad plane enlarged by the border width on all sides (for polar layouts in angle by the border divided by the inner radius), whatever calls were made before. If the border makes a polar module wider than a full turn it is shown to become narrower than its own pads.", "quantifier": "all module histories", "why_tests_cant": "continuous domain", "anchors": ["src/gearimpl/TPCModuleImpl.cc: setBorderWidth, convertLocalPlaneToGlobalPlaneExtend"]}
{"id": "C61", "title": "Which placements of a module succeed", "statement": "Every sequence of setter calls on a module succeeds, unless a rectangular layout is placed in a polar TPC, which always throws NotImplementedException (polar layouts with positive inner radius and non-negative borders).", "quantifier": "all module histories", "why_tests_cant": "unbounded histories", "anchors": ["src/gearimpl/TPCModuleImpl.cc: setOffset, setAngle, setBorderWidth, convertLocalPlaneToGlobalPlaneExtend"]}
{"id": "C62", "title": "Point in ladder", "statement": "Every point of a ladder (or of its sensitive part) that is within the shell is recognised; a point that is recognised is within a tolerance of the ladder named by the returned layer, module and side numbers. Points exactly below the beam axis (x=0, y<0) are shown to be missed.", "quantifier": "all planar detectors and all points", "why_tests_cant": "continuous domain; angle wrap-around", "anchors": ["src/gearimpl/ZPlanarParametersImpl.cc: isPointInLadder, getPhiPoint, correctPhiRange, distanceToPlane, correctToBorderPoint"]}
{"id": "C63", "title": "Distance to the nearest ladder", "statement": "For a point outside all ladders the vector returned leads to the surface of a ladder, and no surface point of any ladder whose normal is within one ladder pitch of the point's azimuth is closer; inside a ladder it is zero. Shown to be violated for layers of one or two ladders (zero everywhere) and for the origin.", "quantifier": "all planar detectors and all points", "why_tests_cant": "continuous domain; angle wrap-around", "anchors": ["src/gearimpl/ZPlanarParametersImpl.cc: distanceToNearestLadder, distanceToPlane"]}
{"id": "C64", "title": "Intersection of a line with the ladders", "statement": "The point returned is the first point in which the line crosses one of the faces considered (all faces at positive z, the end faces at negative z), and the origin if there is none within 99999 mm. Shown to be violated: lines parallel to the xy plane meet nothing at negative z, and lines from the origin of a detector without gap meet nothing.", "quantifier": "all planar detectors, points and directions", "why_tests_cant": "continuous domain", "anchors": ["src/gearimpl/ZPlanarParametersImpl.cc: intersectionLadder, planeLineIntersection, correctToBorderPoint"]}
{"id": "C65", "title": "A file that was not written to its end is not loaded as if it were complete", "statement": "A user relies on an interrupted save being reported by the next load. Shown to fail for every document: the file cut behind any child of the root loads without an error as a document with just the children before the cut; and when an attribute of the root is repeated, everything behind it is ignored without an error.", "quantifier": "all documents and cut points behind a child of the root", "why_tests_cant": "crash points", "anchors": ["src/gearxml/tinyxmlparser.cc: TiXmlElement::Parse, TiXmlElement::ReadValue, TiXmlDocument::Parse"]}
{"id": "C66", "title": "Field and materials survive save/load, and a bad number is noticed", "statement": "A constant field and a simple material that are saved and loaded have each number back as its ten digits say, and are the same if and only if their numbers are kept. A user relies on a malformed number in a material being reported. Shown to fail: a text without a number as atomic mass makes all five numbers 0, a number followed by a unit makes all following numbers 0, without an error, and an empty text is undefined behaviour.", "quantifier": "all fields, materials and attribute texts", "why_tests_cant": "unbounded texts and numbers", "anchors": ["src/gearxml/ConstantBFieldXML.cc", "src/gearxml/SimpleMaterialXML.cc: fromXML, toXML"]}
{"id": "C67", "title": "A beam telescope is a table of planes", "statement": "After any sequence of added planes, setter calls and device-under-test definitions, every getter of a telescope returns for each plane the number last written to it (or the one it was added with), a setter changes this number and nothing else, and an index out of range throws and changes nothing. Tracker planes are found by index in the order they were added and by ID with the first one meant. Shown to fail: the short form of addLayer of the layout leaves the resolutions 0 while that of the parameters sets them; the layout ID that was set cannot be read.", "quantifier": "all sequences of calls, all indices and values", "why_tests_cant": "call histories", "anchors": ["src/gearimpl/SiPlanesLayerLayout.cc", "include/gear/gearimpl/SiPlanesLayerLayoutImpl.h", "include/gear/gearimpl/SiPlanesParametersImpl.h", "include/gear/gearimpl/TrackerPlanesLayerLayoutImpl.h"]}
{"id": "C68", "title": "Defaults in a TPC file mean what they would mean written out", "statement": "A TPC description whose modules leave out elements is read exactly as the same description with every module written out in full: its own elements count first, then those of the last <default> before it in the section (or the first of the section), and a module without any number gets the start count of its section plus the number of modules before it there. Generic parameters are not taken from a default. Shown to fail: a comment that reads just \"modules\" hides the sections after it.", "quantifier": "all TPC descriptions: any number of sections, defaults, modules and other nodes in any order", "why_tests_cant": "unbounded documents", "anchors": ["src/gearxml/TPCParametersXML.cc: fromXML", "src/gearxml/TPCModuleXML.cc: fromXML"]}
{"id": "C69", "title": "Material queries answer for the point asked, whatever was asked before", "statement": "With the TGeo plugin every query for a point (material name, density, temperature, pressure, radiation and interaction length, volume lists) gives the properties of the volume at that point, after any sequence of earlier queries and wherever another user left the geometry manager; a point outside the world throws, and what is not supported throws. Shown to be violated by getLocalPosition: it answers in the frame of wherever the last query left the manager (wrong on a new manager and after a volume list), and does not throw outside. The text behind the reference returned by getMaterialName changes with the next successful call.", "quantifier": "all geometries, points and histories of queries", "why_tests_cant": "histories of calls that share a navigator", "anchors": ["src/geartgeo/TGeoGearPointProperties.cc: getMaterialName, getDensity, getLocalPosition, getListOfLogicalVolumes"]}
{"id": "C70", "title": "Volume lists go from the point up to the world", "statement": "The lists of logical and of physical volumes at a point have the same length, one entry for each level, in the same order: the volume at the point first, then each volume that contains it, the world last; the query returns for every geometry whose branches lead to the top volume (and only then is it sure to).", "quantifier": "all geometries of any depth, all points", "why_tests_cant": "unbounded depth; termination", "anchors": ["src/geartgeo/TGeoGearPointProperties.cc: getListOfLogicalVolumes, getListOfPhysicalVolumes"]}
{"id": "C71", "title": "A material plugin hands out objects only for a geometry it has read", "statement": "After any sequence of configurations and initialisations the plugin object hands out point and distance objects exactly if an initialisation has succeeded, and then for the geometry of the last one that did; initialize succeeds exactly if the file configured last can be read and throws a ParseException otherwise. A <GDMLFile> in a file sets both for the geometry named, throws if it cannot be read, and sets nothing without the library.", "quantifier": "all sequences of configurations and initialisations, all files", "why_tests_cant": "call histories with failures in between", "anchors": ["src/geartgeo/TGeoMaterialProperties.cc: initialize, getGearPointProperties, getGearDistanceProperties", "src/geartgeo/TGeoGeometryInitializer.cc", "src/gearxml/GearXML.cc: createGearMgr"]}
{"id": "C72", "title": "Queries to Mokka are for the points asked and in the right unit", "statement": "The numbers of radiation and interaction lengths between two points are the sums over the steps Mokka reports for a beam between them in centimetres, the field integrals those between the points in millimetres, and the point queries what Mokka answers for the point, after any sequence of earlier queries. The lists of names and thicknesses are those of the steps if Mokka replaces the contents of the vectors it is given; if it adds to them, the lists begin with those of all earlier calls. Mokka is initialised once, with the arguments of the first object created.", "quantifier": "all points, all answers of Mokka, all histories of queries", "why_tests_cant": "call histories; static vectors", "anchors": ["src/gearcga/CGAGearDistanceProperties.cc", "src/gearcga/CGAGearPointProperties.cc", "src/gearcga/CGAGeometryInitializer.cc"]}
{"id": "C73", "title": "Angles are brought into range in double arithmetic", "statement": "Where the pad layouts bring an angle into a window by adding or subtracting turns one at a time, in double arithmetic, this ends for every double up to 2^56 in absolute value; the result is a double inside the window (full circles: at least 0 and below 2 pi), equal to the angle if that was inside, and differs from it by whole turns up to a bound on the rounding errors. For every double above 2^56 in absolute value it never ends.", "quantifier": "all doubles, all windows with ends up to 2^50", "why_tests_cant": "the doubles cannot be enumerated; the failures are at sizes no test uses", "anchors": ["src/gearimpl/FixedPadSizeDiskLayout.cc", "src/gearimpl/FixedPadAngleDiskLayout.cc", "src/gearimpl/VersatileDiskRowLayout.cc"]}
{"id": "C74", "title": "Material maps in double arithmetic: every plane but possibly the last", "statement": "In double arithmetic, a material map of ranges whose rounding errors are small against a part holds in each coordinate the material at a point within a sixteenth of a part of each end point of the parts, except that the last plane may never be filled and then holds zeros. If the ends and the parts are multiples of a common power of two nothing is missing. For x from 0 to 100 in nine parts the last plane is missing and the lengths read at x = 100 are 0, whatever the material. In maps of exact ranges a grid point reads as stored; every reading lies between the smallest and the largest length stored, up to one part in 2^47; with at least two parts per coordinate (or one point) every point of the range can be read. Shown to happen with one part: a point of the range reads as 0/0 (x from -12 to 54.9, at 10.13), and a point next to the upper plane reads the far one (x from -2 to 3, at 2.999).", "quantifier": "all ranges and numbers of steps with small rounding errors, all materials, all ways to compute a point from coordinates, all doubles as coordinates of a reading", "why_tests_cant": "accumulated rounding depends on every bit of the ends and the number of steps", "anchors": ["src/geartgeo/MaterialMap.cc"]}
{"id": "C75", "title": "Printing a geometry shows everything in it", "statement": "Printing a whole geometry whose numbers are not absurdly long, and whose FTD has at most seven layers, ends normally and the output contains the detector name, the field, each detector under its heading, each named section of parameters and each material, whatever order the compiler evaluates the operands in. Shown to be violated by an FTD of eight or more layers: an exception leaves the operator and nothing after the FTD is printed, whatever the geometry holds. SIT and SET are printed twice; a compiler working from left to right prints headings of detectors that are not there.", "quantifier": "all geometries, all streams, all evaluation orders", "why_tests_cant": "unbounded contents of every kind; unspecified evaluation order", "anchors": ["src/gearimpl/Util.cc: operator<<(GearMgr)"]}
{"id": "C76", "title": "Printing and the format of the stream", "statement": "After printing a geometry without materials the format of the stream is as before and printing again prints the same. Shown to be violated with materials: the stream is left in fixed notation, without signs and in decimal, so that the second print differs from the first whenever there is a field and the stream was not like this before, and later prints equal the second.", "quantifier": "all geometries, all stream formats", "why_tests_cant": "the effect depends on everything printed before", "anchors": ["src/gearimpl/Util.cc: operator<<(SimpleMaterial), operator<<(GearMgr)"]}
{"id": "C77", "title": "Printed tables can be read back and stay inside their buffer", "statement": "The tables of ladder detectors, FTD, SiPlanes (with the device under test) and TrackerPlanes have one line per row; split at blanks and bars, a line has exactly the entries of the row in their order, integers exactly and lengths to the nearest number with the printed decimals. The lines fit the buffer of 1024 characters if the lengths have at most a hundred (telescopes: thirty) digits and the texts at most 200 characters; a layer with eight lengths of 122 digits, or a text of 819 characters, overruns it.", "quantifier": "all detectors made by any calls, all values in the stated ranges", "why_tests_cant": "unbounded numbers of rows; the overrun needs values no test uses", "anchors": ["src/gearimpl/Util.cc: operator<<(ZPlanarParameters), operator<<(FTDParameters), operator<<(SiPlanesParameters), operator<<(TrackerPlanesParameters)", "include/gear/gearimpl/TrackerPlanesLayerLayoutImpl.h: PrintLayers"]}
{"id": "C78", "title": "Printed calorimeters", "statement": "The block of a calorimeter has its type, symmetry, angle, extent and number of layers; the lines about layers are in increasing order, say what the getters say, the last layer has one, and thickness and absorber of every layer are those of the last line up to it. Shown to be lost: the cell sizes of a layer as thick as the one before.", "quantifier": "all calorimeters made by any calls", "why_tests_cant": "unbounded numbers of layers in any order", "anchors": ["src/gearimpl/Util.cc: operator<<(CalorimeterParameters)"]}
{"id": "C79", "title": "Printed parameters, fields and TPCs", "statement": "Printing a set of parameters shows each one with its kind, name and value; a field shows its vector and parameters; a TPC shows its values, its parameters and each of its modules; a module shows its values, and says so if it has no z position, in any evaluation order.", "quantifier": "all parameter sets, fields, TPCs, modules and stream formats", "why_tests_cant": "unbounded contents", "anchors": ["src/gearimpl/Util.cc: operator<<(GearParameters), operator<<(BField), operator<<(TPCParameters), operator<<(TPCModule)"]}
{"id": "C80", "title": "Nearest pad of a rectangular layout with doubles", "statement": "With sums, products and quotients rounded to doubles, getNearestPad, whenever it comes back, returns the pad of a point that differs from the query (moved into the plane) by no more than the rounding errors, a few units in the last place times the number of rows; it never leaves the rows. Shown to happen instead: std::out_of_range for points of the plane just left of the right edge of the pads.", "quantifier": "all layouts built from doubles of ordinary size by any calls, up to 65536 rows and pads, pads as high as their rows; all doubles x, y", "why_tests_cant": "the errors depend on every edge computed before; the exception needs the last doubles before an edge", "anchors": ["src/gearimpl/RectangularPadRowLayout.cc: addRow, repeatRows, getNearestPad"]}
{"id": "C81", "title": "When the row search comes back, with doubles", "statement": "With rows of one height getNearestPad comes back within three turns of its loop exactly if the point does not fall between two rows, i.e. unless both computed distances from the row centres exceed half the height; then it never comes back. It always comes back if the sizes need no rounding. Shown to happen: rows of height 1.2 from y = 1, point y = 2.2.", "quantifier": "all such layouts with rows of one height, all doubles x, y", "why_tests_cant": "non-termination for single doubles; over the reals (C09) it always ends", "anchors": ["src/gearimpl/RectangularPadRowLayout.cc: getNearestPad"]}
{"id": "C82", "title": "Pad centres with doubles", "statement": "The centre of every pad, computed with doubles, is the middle of its cell up to the rounding errors, isInsidePad accepts it for its pad, and with rows of one height getNearestPad returns that pad for it.", "quantifier": "all such layouts, all their pads", "why_tests_cant": "depends on the rounding errors of all rows below", "anchors": ["src/gearimpl/RectangularPadRowLayout.cc: getPadCenter, isInsidePad, getNearestPad"]}
{"id": "C83", "title": "Copies of copies", "statement": "Once a geometry has been saved and loaded, saving and loading again changes nothing more and all further files are identical, provided each of its parts settles in this way on its own. Parameters, fields, materials, ladder detectors, disks of petals, beam telescopes and disks of equal pads do, whatever calls made them, if their numbers are not extremely small or large. A calorimeter does exactly if close consecutive layers of the first copy are equal. Shown to fail again and again: for every n there is a calorimeter whose first layer is changed only by the n-th copy.", "quantifier": "all managers made by any calls, all parameters, detectors and materials, any number of copies", "why_tests_cant": "idempotence over all reachable managers and a counterexample family in the number of copies", "anchors": ["src/gearxml/GearXML.cc: createGearMgr, createXMLFile", "src/gearxml/CalorimeterParametersXML.cc: toXML, fromXML, isEqual", "src/test/testXMLCopy.cc: main"]}
{"id": "C84", "title": "Pads of a mounted TPC module", "statement": "The centre of a pad of a TPC module, wherever the module is shifted or turned, is the module's own image of the centre in its layout, and questions about a pad at a point are put to the layout at the point carried back. For rectangular layouts the centre of a pad is on that pad, at distance 0. For layouts of pads of fixed angle the nearest pad of the centre of a pad is that pad, and a point is on some pad exactly if it is in the mounted area of one of the pads. Shown to fail: for layouts of pads of fixed angle isInsidePad(c, pad) denies the centre of a pad at a negative angle in a moved or cartesian module, although getNearestPad finds it; on the edge at the largest angle isInsidePad(c) throws.", "quantifier": "all modules of a TPC with any offset, angle and border, all layouts of fixed angle pads and rectangular layouts, all pads", "why_tests_cant": "unbounded numbers of pads and all positions of the module; fails only at negative angles", "anchors": ["src/gearimpl/TPCModuleImpl.cc: getPadCenter, getNearestPad, isInsidePad, getDistanceToPad"]}
{"id": "C85", "title": "The programs mergeXML, testXMLCopy and printParameters", "statement": "No program changes any file but the one named as its output, and that one only when it ends with status 0. mergeXML ends with 1 if too few files are named, with 2 exactly if one of its inputs cannot be read, with 1 exactly if an input is no geometry or the output cannot be written; otherwise what it writes is the second input with additions from the first. testXMLCopy writes a file from which what comes back of every part is loaded, the same geometry if every part survives on its own; the copy of a file written by the library is then the same text, and if every part settles a copy of a copy and its copy are identical. printParameters prints everything and ends with 0, or ends with 1. Shown to fail: mergeXML ends with status 0 although an exception kept it from writing, testXMLCopy although the output cannot be written; printParameters cannot print an FTD with eight layers.", "quantifier": "all disks, all arguments, all contents of files", "why_tests_cant": "all files and all combinations of readable, writable and missing files, including output over input", "anchors": ["src/test/mergeXML.cc: main", "src/test/testXMLCopy.cc: main", "src/test/printParameters.cc: main", "src/gearxml/tinyxml.cc: TiXmlDocument::SaveFile"]}
{"id": "C86", "title": "The pads of a TPC are found from their centres", "statement": "In a TPC whose modules have rectangular layouts with rows of one height filled by their pads, however the modules are mounted, the centre of every pad is on a pad of the TPC, and the nearest pad of that point is the pad itself and its module, unless a module added earlier has a pad there. The same holds for the pads at angles from 0 to 2pi of modules with fixed pad angle that are moved or in a cartesian TPC, next to any modules that answer. Shown to fail: such a pad at negative angles is reported to be as far from its own centre as its straight edges are, so the TPC names a pad of another module as the nearest if one is closer than that.", "quantifier": "all reachable TPCs with any number of modules of these layouts, all mountings, all pads", "why_tests_cant": "unbounded numbers of modules and pads, all mountings; fails only for negative angles next to another module", "anchors": ["src/gearimpl/TPCParametersImpl.cc: getNearestPad, isInsidePad", "src/gearimpl/TPCModuleImpl.cc: getPadCenter, getDistanceToPad", "src/gearimpl/FixedDiskLayoutBase.cc: getDistanceToPad"]}
{"id": "C87", "title": "The old search for the nearest pad", "statement": "On every rectangular layout with rows getNearestPadOld returns, whatever the heights and offsets: a pad in the row whose pads are nearest to the point moved to the plane, the lowest of equally near ones, and in this row the pad whose cell holds the point or the first or last one. It finds every pad of a row of positive height from its centre, also where getNearestPad never returns. If no row has offsets and one row is nearer than the others, getNearestPad, where it returns a pad, returns the same one. Shown to fail: getNearestPad goes by the height of the point alone, so that left of the offset of a row it misses a nearer pad of the next row, which the old search finds; the old search returns a pad of the bottom row, nearest or not, if all pads are further away than twice the height of the plane; without rows it reads a row that does not exist.", "quantifier": "all rectangular layouts made by any calls, all points of the plane", "why_tests_cant": "unbounded numbers of rows with any heights and offsets; the limit of twice the height matters on wide and low planes only", "anchors": ["src/gearimpl/RectangularPadRowLayout.cc: getNearestPadOld, distanceToBox", "include/gear/gearimpl/RectangularPadRowLayout.h: getNearestPadOld"]}
{"id": "C88", "title": "The place of an error in a file, and when loading returns", "statement": "While a file is parsed, lines and columns are kept track of, for the message of the exception thrown for a file that cannot be parsed. If loading returns, this changes nothing about the document, and loading fails exactly if the file is empty or an error was set. Loading returns if the byte EF is not among the last two bytes of the file. In a text of 7-bit characters the row and column of the error are, counted from 1, with CR LF as one line break and tabulators of four columns, those of a place in the text where there is what the message says: an end tag of another element, a slash without >, an attribute without equals sign, and so on. The first error counts. Shown to fail: after an XML declaration, loading a file that ends with the beginning of a tag, EF and a slash never returns; errors found at the end of the text come with row 0 and column 0.", "quantifier": "all byte strings; all texts of 7-bit characters", "why_tests_cant": "unbounded inputs; a loop that does not end cannot be observed by a test", "anchors": ["src/gearxml/tinyxmlparser.cc: TiXmlParsingData::Stamp, TiXmlDocument::SetError, TiXmlDocument::Parse, TiXmlElement::Parse, TiXmlElement::ReadValue, TiXmlAttribute::Parse, TiXmlText::Parse, TiXmlComment::Parse, TiXmlUnknown::Parse, TiXmlDeclaration::Parse", "src/gearxml/tinyxmlerror.cc", "src/gearxml/tinyxml.cc: TiXmlDocument::LoadFile", "src/gearxml/GearXML.cc: createGearMgr"]}
{"id": "C89", "title": "Who owns what: the memory of pad layouts, modules and TPCs", "statement": "A module owns the layout it was made with, a TPC the modules it accepted, a layout the lists of pads it handed out; the rest is the user's. After any calls - making, filling, copying, cloning, assigning and deleting layouts, modules and TPCs, asking for the pads of rows, adding modules - in which the user uses only what exists, gives away and deletes only what is theirs and assigns no module to itself, no call uses or deletes an object that is gone; a call that throws changes nothing; and alive is exactly what the rules of ownership say, so that nothing leaks: when the user has nothing left, nothing is alive. The list of pads of a row is the same object whenever it is asked for, until its layout is assigned to or deleted. A TPC refuses a module it was just given. Shown to fail outside the rules: assigning a module to itself uses its deleted layout; a layout given to two modules, and a module accepted by two TPCs, are deleted twice; since a TPC looks at the number only, a module that was assigned one with another number is accepted again, and deleted twice.", "quantifier": "all histories of calls on any number of layouts, modules and TPCs", "why_tests_cant": "a history of any length; use after deletion and leaks are not observable results", "anchors": ["src/gearimpl/TPCParametersImpl.cc: cleanup, addModule, setPadLayout, ~TPCParametersImpl", "src/gearimpl/TPCModuleImpl.cc: TPCModuleImpl, copy_and_assign, operator=, cleanup", "src/gearimpl/RectangularPadRowLayout.cc: getPadsInRow, copy_and_assign, operator=, cleanup", "src/gearimpl/VersatileDiskRowLayout.cc: getPadsInRow, copy_and_assign, operator=, cleanup", "src/gearimpl/FixedPadSizeDiskLayout.cc: getPadsInRow, copy_and_assign, operator=, cleanup", "src/gearimpl/FixedPadAngleDiskLayout.cc: getPadsInRow, copy_and_assign, operator=, cleanup"]}
{"id": "C90", "title": "Calorimeter layers in double arithmetic", "statement": "In the arithmetic of doubles a layer that is added starts at the double nearest to the end of the layer before it: no double is closer, and gap or overlap is at most 2^-53 of the distance. All other numbers of a layer are as given. Layers of non-negative thickness do not start before their predecessors; they start after them if the thickness of the predecessor is more than 2^-53 of the distance of its end. If all layers are added, layer i starts at the sum of the thicknesses before it up to a factor between (1 - 2^-53)^i and (1 + 2^-53)^i. If computed without rounding every layer ends at a double, for instance if all numbers are multiples of one power of two below 2^53 of it, nothing at all is rounded and what C19 says about real numbers holds to the last bit. The outer end in the extent is exactly where a layer added next would start. Shown to fail: a layer of a thickness of up to 2^-54 of its distance is followed by one at the same distance; the same layers in another order (0.1, 0.2, 0.3 or 0.3, 0.2, 0.1) end elsewhere.", "quantifier": "all histories of calls on a calorimeter, barrel or endcap, all doubles", "why_tests_cant": "rounding errors build up over any number of layers; tests use numbers that fit or compare with a tolerance", "anchors": ["src/gearimpl/LayerLayoutImpl.cc: addLayer, positionLayer", "src/gearimpl/CalorimeterParametersImpl.cc: getExtent", "include/gear/gearimpl/LayerLayoutImpl.h"]}
{"id": "C91", "title": "Nodes of XML documents", "statement": "Whatever calls of LinkEndChild, InsertEndChild, InsertBeforeChild, InsertAfterChild, ReplaceChild, RemoveChild, Clear, Clone, assignment and delete have been made on the nodes of XML documents within the rules (use what exists, link and delete only roots and never below themselves, remove only children, assign between elements or documents not within each other), the pointers between the nodes are those of a collection of trees, which they determine, and nothing else is alive. Each further call within the rules returns, without use of deleted nodes and without a failed assertion, and has done what it should: put a copy of the node with all below it (of nodes other than elements and documents: without) at the given place among the children and returned it, or returned null and changed nothing if the place is not a child; removed and deleted a child with all below it; and so on; everything else stays. When all trees are deleted nothing is left. IterateChildren, from null until null, visits each child once and in order, with a value those that have it; LastChild with a value gives the last of them; GetDocument gives the nearest document at or above a node. Outside the rules: RemoveChild of a node that is not a child fails an assertion, an element assigned to itself loses its children, assigned from a node below itself it uses deleted memory, and a node linked twice is deleted twice.", "quantifier": "all histories of calls, all trees and all nodes in them", "why_tests_cant": "pointer structures of any shape after any history; use of deleted memory may go unnoticed by tests", "anchors": ["src/gearxml/tinyxml.cc: TiXmlNode, TiXmlElement, TiXmlDocument (LinkEndChild, InsertEndChild, InsertBeforeChild, InsertAfterChild, ReplaceChild, RemoveChild, Clear, Clone, CopyTo, operator=, IterateChildren, FirstChild, LastChild, NextSibling, PreviousSibling, GetDocument, destructors)", "include/gear/gearxml/tinyxml.h"]}
{"id": "C92", "title": "Attributes of XML elements", "statement": "Whatever calls that set, remove, rename or revalue attributes of XML elements, and that create, copy, assign and delete elements, have been made on what exists (no element being assigned to itself), the links between the attributes are those of one closed ring for each element, and nothing else is alive. Each further such call returns, without use of deleted memory and without a failed assertion, and changes only the element concerned: setting changes the first attribute of that name or adds one at the end; removing takes away the first of that name if there is one; deleting leaves nothing; a copy or assignment sets in the target, one after the other, the attributes of the source that can be reached by going through them. Attribute gives the value of the first attribute of the name: what was set last, whatever is done to other names and elements. Going through the attributes with FirstAttribute and Next, or LastAttribute and Previous, visits all once, in order, if each has a name or a value, and then a copy has the same names and values in the same order, if no name is there twice. Otherwise: an attribute other than the first with empty name and value hides itself and all after it from going through them, from printing and from copies, although Attribute finds them; renaming can make two attributes of one name, of which only the first is found; an element assigned to itself loses its attributes.", "quantifier": "all histories of calls, all elements, names and values", "why_tests_cant": "linked structures of any length after any history; use of deleted memory may go unnoticed by tests", "anchors": ["src/gearxml/tinyxml.cc: TiXmlAttributeSet (Add, Remove, Find, destructor), TiXmlAttribute (Next, Previous), TiXmlElement (SetAttribute, RemoveAttribute, Attribute, ClearThis, CopyTo, operator=, destructor)", "include/gear/gearxml/tinyxml.h"]}
{"id": "C93", "title": "XML documents through streams", "statement": "Take a document whose nodes up to its first element are comments, with names, values, texts and comments that survive writing, and no comment that starts with '>' or '->'. Writing it to a stream and reading it from there, after any white space, gives its nodes up to and including the first element (the others are not written) without an error, and leaves the stream good and just behind what was written; so documents written one after the other, with white space between, are read back one by one. The same holds for what Print wrote, where the nodes after the first element stay in the stream. White space, comments, declarations and other markup before the root are taken with it, and nothing after its end. Whatever the input, if there is no zero byte in it: reading ends; the document is what parsing gives for the bytes taken; no byte is lost. Otherwise: with a zero byte in the content of an element reading never ends; of a document with a comment starting with '>' before its root, which saving and loading preserve, reading from the stream stops within the comment and parsing reads beyond the end of the text.", "quantifier": "all documents, all inputs, everything that follows in the stream", "why_tests_cant": "texts of any length and depth; a loop that does not end; what is left in the stream", "anchors": ["src/gearxml/tinyxmlparser.cc: StreamIn (TiXmlDocument, TiXmlElement, TiXmlText, TiXmlComment, TiXmlUnknown, TiXmlDeclaration), StreamTo, StreamWhiteSpace, Identify", "src/gearxml/tinyxml.cc: StreamOut, operator>>, operator<<", "include/gear/gearxml/tinyxml.h"]}
{"id": "C94", "title": "References, loops and threads on parameter objects", "statement": "After any calls on a parameter object: a reference returned by getStringVal, getIntVals, getDoubleVals or getStringVals shows, whatever has been called since, the value last set for that key and type; references for different keys or types show different variables. A key list returned by getIntKeys and its likes shows the keys there were when that function was last called on the object: keys set later do not appear by themselves, and other functions do not change it. A loop by iterator over a key list visits every key once, in order, whatever its body sets, unless the body calls the same key function, which is undefined behaviour for any key visited. A loop by index visits every key once, in order, if the body sets no new key of that type, even if it calls the key function; otherwise it may visit one key twice and another not at all. If several threads call only const functions, and no two of them the same key function, every schedule shows each of them what it would see alone; if two call the same key function, which is const, there is for every object with a key of that type a schedule that shows wrong keys.", "quantifier": "all histories of calls, keys, values, loop bodies, and all schedules of any number of threads", "why_tests_cant": "depends on the history between a call and the use of its result, and on schedules", "anchors": ["src/gearimpl/GearParametersImpl.cc: getIntKeys, getDoubleKeys, getStringKeys, getIntVecKeys, getDoubleVecKeys, getStringVecKeys, getStringVal, getIntVals, getDoubleVals, getStringVals, setIntVal, setStringVal", "include/gear/gearimpl/GearParametersImpl.h", "src/gearxml/GearParametersXML.cc: toXML"]}
{"id": "C95", "title": "Quick checks of planar-ladder look-ups in machine arithmetic", "statement": "In float and double arithmetic getMaxRadius of a layer with ladders at least 0.000001 away and wide reports a value that differs from the largest distance from the beam axis of a point of a ladder by at most one part in five million; for a missing layer it throws std::out_of_range. If that distance is at most 499, the checks with which isPointInLadder and isPointInSensitive skip layers before looking at ladders lose no point of a ladder, and they skip the layer for every point that is 0.0002 nearer to the axis than the ladders, 0.0003 farther than the largest distance or 0.0002 beyond the ends. For larger layers this fails: the float radius can fall short by more than the margin 0.0001, and the layer is then skipped for points of its own ladders.", "quantifier": "all layers, their real dimensions, all points, for ladders and sensitive parts", "why_tests_cant": "holds for every real dimension and point; the failing case needs dimensions next to a rounding boundary of float", "anchors": ["src/gearimpl/ZPlanarLayerLayout.cc: getMaxRadius", "src/gearimpl/ZPlanarParametersImpl.cc: isPointInLadder, isPointInSensitive"]}
{"id": "C96", "title": "Handles on document nodes", "statement": "A chain of calls FirstChild, FirstChildElement, Child, ChildElement on a TiXmlHandle, with or without a value, leads to the child so numbered among the children of that value (only elements for the element calls), or to a null handle if there is none; from a null handle every call leads to a null handle. Element, Text and Unknown return the node if it is of that kind, else null. No such call is undefined behaviour while the node exists, after any changes to the trees. A negative index is not refused: it leads to the first child. Handles are not told about deletions: any call on a handle to a node that has been deleted, or was below one that has been, is undefined behaviour.", "quantifier": "all reachable trees of nodes, all chains of calls, values and indices", "why_tests_cant": "ranges over all trees, chains and histories; undefined behaviour need not show in a test", "anchors": ["src/gearxml/tinyxml.cc: TiXmlHandle::FirstChild, FirstChildElement, Child, ChildElement, TiXmlNode::FirstChildElement, NextSiblingElement", "include/gear/gearxml/tinyxml.h: TiXmlHandle"]}
{"id": "C97", "title": "Pads of fixed angle are found again in machine arithmetic", "statement": "In double arithmetic, for a FixedPadAngleDiskLayout with angles within 100 radians, at most one turn, rows at least 1e-9 high and pads at least 1e-6 wide in angle: getNearestPad returns the pad for every point that is inside it by at least a millionth of its size in both coordinates; the centre reported by getPadCenter is such a point, so the pad is found again, if the outer radius is at most 1e12 times the row height. Without the last condition this fails: the reported centre of a pad can lie in another row.", "quantifier": "all layouts within those limits, all pads, all points well inside a pad", "why_tests_cant": "rounding errors depend on every value of the arguments", "anchors": ["src/gearimpl/FixedPadAngleDiskLayout.cc: FixedPadAngleDiskLayout, getPadCenter, getNearestPad"]}
{"id": "C98", "title": "Pads of fixed size on a disk in machine arithmetic", "statement": "In double arithmetic, for a FixedPadSizeDiskLayout on a ring with an opening angle between 0.001 and one turn, rows at least 0.001 high and at most 65536 rows and pads per row: getNearestPad returns the pad for every point that is inside it by at least a millionth of its size in both coordinates; the centre reported by getPadCenter is such a point, so the pad is found again, if the outer radius is at most 1e12 times the row height; the pads of a row with their gaps fit on the arc through the middle of the row and one more does not, up to a relative error of 1e-14; and a ring that is k pad heights wide (pads at least 0.02 high, radii up to 1e9), up to 0.001, has k rows, or as many as were asked for if that is between 1 and k.", "quantifier": "all layouts within those limits, all pads, all points well inside a pad", "why_tests_cant": "rounding errors depend on every value of the arguments", "anchors": ["src/gearimpl/FixedPadSizeDiskLayout.cc: FixedPadSizeDiskLayout, getPadCenter, getNearestPad, getNRows, getPadIndex"]}
{"id": "C99", "title": "Rows of a versatile disk layout in machine arithmetic", "statement": "In double arithmetic and with any cosine, for a VersatileDiskRowLayout made by one addRow call without offset (at most 4096 rows of at most 65536 pads, heights 0.001 to 1e6, pitch at least 0.001, outer radius at most 1e5 times the row height): getNearestPad returns the pad for every point that is inside it by at least a millionth of its size in both coordinates, although the radii are summed up row by row; the centre reported by getPadCenter is such a point, so every pad is found again. Without the limit on the outer radius this fails: rows that are thin in comparison with their radius get the same centre, and the reported centre of a pad in the second row is found in the first. A further addRow call within these limits leaves the centres of the pads there are as they are, puts its rows from the outer radius of the layout on, up to a millionth of the row height, and moves the outer radius by their total height.", "quantifier": "all layouts within those limits, all pads, all points well inside a pad, all cosine functions", "why_tests_cant": "rounding errors depend on every value of the arguments and add up over the rows", "anchors": ["src/gearimpl/VersatileDiskRowLayout.cc: addRow, Row, getPadCenter, getNearestPad, getDistanceToRow"]}
{"id": "C100", "title": "Every point of a disk layout in machine arithmetic", "statement": "In double arithmetic, for points on the edges of pads as well: in a FixedPadSizeDiskLayout every point between the two radii and within the opening angle, the ends included, is given by getNearestPad to a pad on which it lies up to a millionth of the pad's size, if every row has pads; in a FixedPadAngleDiskLayout the same holds for points at least 1e-12 away from the two limiting angles. Closer to the upper limiting angle it fails: with three pads from angle 0 to 2 the largest double below 2 is inside the layout, but the quotient is rounded up to 3 and getNearestPad throws out_of_range.", "quantifier": "all layouts of moderate size, all points (also those on edges), any number of loop iterations allowed", "why_tests_cant": "the points that round to another pad are isolated doubles next to the edges", "anchors": ["src/gearimpl/FixedPadAngleDiskLayout.cc: getNearestPad, getPadIndex", "src/gearimpl/FixedPadSizeDiskLayout.cc: getNearestPad, getPadIndex"]}
{"id": "C101", "title": "The number of pads is an int", "statement": "With the number of pads counted in int: any history of addRow, repeatRows and getPadsInRow calls with legal arguments on a RectangularPadRowLayout, and of addRow and getPadsInRow calls on a VersatileDiskRowLayout, has defined behaviour exactly if the number of pads counted (that of all rows and of the refused rows that are counted as well) is at most 2147483647, and then the layout is the same as with unbounded counting; the constructors of FixedPadAngleDiskLayout and, for sane arguments, FixedPadSizeDiskLayout likewise. Layouts whose pads all have different pad indices can exceed this: 32768 rows of 65536 pads are undefined behaviour in RectangularPadRowLayout and FixedPadAngleDiskLayout.", "quantifier": "all histories of calls, all legal arguments", "why_tests_cant": "the sum runs over the whole history and overflows only after billions of pads", "anchors": ["src/gearimpl/RectangularPadRowLayout.cc: addRow, repeatRows", "src/gearimpl/VersatileDiskRowLayout.cc: addRow", "src/gearimpl/FixedPadAngleDiskLayout.cc: FixedPadAngleDiskLayout", "src/gearimpl/FixedPadSizeDiskLayout.cc: FixedPadSizeDiskLayout"]}
{"id": "C102", "title": "Inside a pad of fixed angle in machine arithmetic", "statement": "In double arithmetic isInsidePad(r,phi,pad) of a FixedPadAngleDiskLayout holds for every point at least a millionth of the pad's size inside that pad, and only for points on the pad up to a millionth of its size. For points well inside some pad it holds for exactly one pad, the one getNearestPad returns. At the edges the pads do not quite meet: with 17 pads from angle 0 to 3 there is a double angle between two neighbouring pads that isInsidePad(r,phi) puts inside the layout although it is inside none of its pads.", "quantifier": "all layouts of moderate size whose rows are not too thin, all their pads, all points", "why_tests_cant": "the edges of a pad are the result of several roundings; the uncovered angle is a single double", "anchors": ["src/gearimpl/FixedPadAngleDiskLayout.cc: isInsidePad, getPadCenter, getNearestPad"]}
{"id": "C103", "title": "Inside a pad of fixed size in machine arithmetic", "statement": "In double arithmetic, for angles within one turn, isInsidePad(r,phi,pad) of a FixedPadSizeDiskLayout is true for every point of the ring that lies on the pad (of the height and the width asked for, in the middle of its cell) with a margin of a millionth of the cell, and false for every point that misses the pad by more than that. The centre that getPadCenter reports is always inside its pad, however small the pad.", "quantifier": "all rings with rows that are not too thin and gaps that are not negative, all their pads, all points", "why_tests_cant": "radius, width and angle of a pad are results of several roundings that depend on all arguments of the constructor", "anchors": ["src/gearimpl/FixedPadSizeDiskLayout.cc: isInsidePad, getPadCenter, getPadWidth"]}
{"id": "C104", "title": "Inside a pad of the versatile disk layout in machine arithmetic", "statement": "In double arithmetic, for a VersatileDiskRowLayout within the limits of C99 and rows whose pads have an angle of at least 1e-7: for angles from a hundred-thousandth of a pad up to a turn, isInsidePad(r,phi,pad) is true for every point at least a millionth of the pad's size inside the cell of the pad, and false for every point that misses the cell by a millionth, although the code adds a turn to angles below the pad and does not compare with the lower edge. For points well inside a pad it is true for exactly one pad of the row, the one that getNearestPad returns. It is true as well for an angle that is larger by a turn of the machine (2*M_PI).", "quantifier": "all layouts within those limits, all pads, all points, all cosine functions", "why_tests_cant": "rounding errors depend on every value of the arguments; adding a turn loses digits of the angle", "anchors": ["src/gearimpl/VersatileDiskRowLayout.cc: isInsidePad, getNearestPad, addRow, Row"]}
