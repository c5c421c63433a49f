# OpenCompGraph: formal model and proofs

Model of the Rust core of OpenCompGraph (`/repo/src`) in Rocq/Coq 8.16.1.
Properties are in `properties.jsonl`, theorem names per property in `MANIFEST.json`,
the mutation-test log in `seeded/LOG.jsonl`.

Contents: conventions, what is modelled, method per property, findings, trusted base.

## Conventions

* Every definition of a model file cites the Rust file and lines it models; simplifications are
  noted in the same comment.
* `Res A := Ok a | Panic` – a Rust panic (assert, index out of bounds, debug overflow, `panic!`)
  is the value `Panic`. The release profile builds with `panic = "abort"`, so `Panic` ends the
  process.
* Integer arithmetic whose overflow matters takes a `profile` (`Debug`: overflow panics,
  `Release`: wraps), because `Cargo.toml` sets `overflow-checks = false` in release only.
* Floats are IEEE-754 `spec_float` (stdlib `Coq.Floats.SpecFloat`, executable, no axioms), or bit
  patterns where a property is about bit patterns (attributes, hashing). `spec_float` has one NaN;
  NaN payloads are only kept in the bit-pattern parts.
* Model files contain no proofs. Each topic has `XModel.v` (model), `XSpec.v` (independent
  specification), `XProofs*.v` (lemmas) and `PropertiesX.v`, which holds the theorems with
  `Print Assumptions` under each and non-vacuity `Example`s beside them.
* Status policy in the manifest: `proved` = the statement of `properties.jsonl`, with the guards it
  states, holds for the whole model (extra `_refuted` theorems show that a guard is needed).
  `partial` = the statement is false of the code or proved for part of it; then there is a
  `_refuted` theorem with a witness and the strongest true version found.

## What is modelled

| Rust source | Model file | Fidelity |
|---|---|---|
| `cache.rs` | `CacheModel` | all functions; entries abstract in their payload; `LinkedHashMap` as recency list |
| `bbox/bbox2di*.rs` | `BBoxModel` | all functions and iterators |
| `pixelblock/*` | `PixelModel` | block size, indexes, rows, data blocks, conversions (f32, half, u8, u16), crop copy, resize, pixel buffer |
| `pixel.rs`, `ops/imagecrop.rs` | `PixelModel` | all functions used by the library |
| `ops/imagemerge.rs` | `MergeModel` | all functions |
| `pathutils.rs` | `PathModel` | all functions; `~` and variable expansion (shellexpand) is an arbitrary function |
| `cxxbridge.rs` (enumerations) | `EnumModel` | all `From` conversions |
| `config.rs` | `ConfigModel`, `LookupModel` | capacity computation and file lookup; environment, file system and YAML parser = parameters |
| `graph.rs`, `graphiter.rs`, `node.rs` | `GraphModel` | all functions; node operations are a parameter (`ops`), instantiated by `NodeModel.node_ops` |
| `node/*.rs` attributes | `AttrModel` | every attribute of every node, all getters and setters |
| `hashutils.rs`, `attr_hash`/`cache_hash` of nodes, deformers, colour operations | `HashModel` | all bytes fed to the hasher |
| `stream.rs`, `imagespec.rs` | `StreamModel` | the fields and functions the nodes use |
| `node/*.rs` `validate_inputs`, `compute` | `NodeModel` | every node type; OIIO/OCIO/LDPK calls are the record `externals` |
| `deformer/*.rs`, `deformutils.rs`, `math/xform.rs`, `ops/pixelremap.rs` | `DeformModel` | transform and remap; lens model = oracle |
| `deformer/tde4_classic.rs`, `deformer/ldpk_utils.rs`, `deformer.rs` | `LensModel` | the deformer with its plug-in: parameters, copies, uses; the plug-in = parameter |
| `imageio.rs`, `imageio.cpp` (thread counts), `config.rs` (threading) | `ThreadModel` | the image library's global setting around each read and write; the library = parameter |
| `stream.rs` 43-54, 196-214, 245-280, `cache.rs` 30-36 (sharing) | `ShareModel` | reference counted cells; the rest of a stream is copied by value |
| `deformer/ldpk_utils.rs` 71-163, `deformer/ldpk_utils.cpp` 60-113, `deformer/tde4_classic.rs` 302-330 | `NameModel` | the lens model's answers and the printing of numbers are parameters |
| `graph.rs` 227-236, 614-629, `node.rs` 140-142, `graph.cpp` 157-160 | `ListingModel` | petgraph's `Dot` and derived `Debug` printing are parameters |
| `node.cpp` 28-54, `graph.cpp` 31-165, `cache.cpp` 29-55, `colorlutimage.cpp` 36-73 | `ClientModel` | the classes a C++ client uses; the debug string of a graph is in `ListingModel`, those of caches and configurations are left out |
| `cache.rs` 232-247, `data.rs` 41 | `ReportModel` | the numbers of the report, not their printing |
| `src/pixelblock/pixelblock/row.rs` 42-92, `src/bbox/bbox2di.rs` 83-99, `src/bbox/bbox2di/row.rs` | `RowModel` | usize and i32 arithmetic included |
| `math/colorxform.rs` | `TintModel` | the scale of a colour matrix, which nothing calls |
| `colorutils.rs`, `pixelblock/dynimage.rs`, `imagebuffer.rs`, image-crate branches of `imageio.rs` | `CrateModel` | public functions no node reaches; `fastapprox::faster::pow` and the `image` crate's opening and saving = parameters; log statistics left out |
| `node/{grade,transform,lens_distort}.rs` (building operators) | `OpModel` | the calls that build the operator a node adds; `colorop`/`deformer` accessors |
| `graph.cpp` (whole frames) | `FrameModel` | the conversion of whole frames to f64 before executing |
| `ops/colorgrade.rs`, `ops/xformcolor.rs`, `colorop/*` | `GradeModel` | all functions; `powf` = oracle |
| `ops/bake.rs`, `coloroputils.rs` | `BakeModel` | all functions |
| `geom/plane.rs` | `GeomModel` | all functions |
| `geom.rs` `export_mesh` | `ObjModel` | printing of floats and file writing = oracles |
| `hashutils.rs` `generate_id_from_name` | `FxModel` | `generate_random_id` is not modelled |
| `colorlutimage.rs` | `LutModel` | all functions |
| `imageio.cpp`, `oiio_utils.cpp`, `ops/imageresample.cpp` | `FileModel` | reading, writing, allocation, resampling and compression settings; OpenImageIO itself = parameters; which pixels can be decoded is arbitrary (C88); other metadata and integer overflow are left out |

The model is tested against the repository's own tests: `RepoTests.v` runs the Rust unit tests and the C++ test
programs (as call lists of `ClientModel`, with small pictures in place of the test-data repository) and checks what they
assert, in both build profiles. Not run: `test_node_lens`, `test_node_imageio*`, `test_node_viewer_3dlut`, which are about
the plug-in, the image library's formats and OpenColorIO.

Not modelled: `logger.rs`, the forwarding functions of
`cxxbridge.rs` (they call the modelled functions directly), `#[cfg(test)]` code, the rest of the C++
(forwarding wrappers, colour configuration, lens distortion plug-ins, GPU viewers), time measurement.
`systemmemory.cpp` is a parameter (the size of
the memory); its Linux branch computes `size` and returns an undeclared `bytes`, so it does not compile.
`ocio_print_color_spaces` in `colorspace.cpp` always returns false; only the conversion in that file is
used, as a parameter.

## Method per property

| Id | Theorems in | Method |
|----|----|--------|
| C01–C08, C51 | PropertiesCache | invariants by induction over arbitrary call histories; recency list and finite map as separate specification; profiles related step by step |
| C09–C10 | PropertiesBBox | extensionality on pixels by `lia`; enumeration by induction |
| C11–C20 | PropertiesPixel | div/mod arithmetic; loop invariants over rows (`Loops.v`); pixel function as specification; round trips by kernel computation over the *complete* value domain of the format (bound = the type), lifted to buffers of any length by list induction |
| C21 | PropertiesMerge | loop invariant, pixel-function specification |
| C22–C31, C33, C52 | PropertiesGraph | induction over call histories; BFS invariant for the traversal; execution refined to a recursive denotation (`meaning`); counting of computations |
| C32–C33 | PropertiesAttr, PropertiesOp | finite attribute tables, history interpretation as specification; the operators nodes build are computed call by call and compared |
| C34–C36 | PropertiesHash | injectivity of the byte streams field by field; bit arithmetic |
| C37, C38, C50, C53 | PropertiesNode | relation between hit and miss, case analysis on node type |
| C39–C42 | PropertiesPath | string induction; case analysis |
| C43, C56 | PropertiesGeom | loop invariants; rounding-error analysis with Flocq (`GeomReal`) |
| C44–C45, C57 | PropertiesLut | byte streams; histories of table requests; rounding-error analysis; `vm_compute` over all sizes 2..894 (all sizes that do not panic) |
| C46–C49, C55 | PropertiesBake, PropertiesSpace | symbolic evaluation of the float expressions, induction over pending operations |
| C54 | PropertiesSound | lock-step simulation (`GraphSim`) between an execution with the shared cache and one without; invariant: a stream's hash identifies the computation that made it, and each cached image is the one that computation makes |
| C58–C61 | PropertiesRun | induction over frames; every stream of a successful execution is derived by an inductive relation (`made`, `asks` in `RunSpec`) that covers failing, caching and writing nodes; induction over chains; inversion of each node's computation |
| C62–C63 | PropertiesDeform | positions as lists of pairs, induction over pixels; for C62 a rounding-error analysis of the stretch (`RemapReal`, Flocq), including exact ties |
| C64 | PropertiesIso | simulation between two executions whose indices are related through node ids (`IsoProofs`); locality of each call by the edge-set characterisations of C24 (`IsoFacts`) |
| C65 | PropertiesSafe | an invariant (pictures of 3 or 4 channels on windows within an area, counted cache) kept by each `compute` (`SafeProofs`), lifted through walk and sessions by `GraphSafe`; per condition a history that aborts without it |
| C66, C67 | PropertiesShow | the run relation of C58 with the C65 invariant carried along (`made … sinv`), then one flattening and the pixel facts of C12/C21 at the executed node (`ShowProofs`); for nodes that use the cache composed with C54, the invariant being that nothing is kept (`ShowCacheProofs`, PropertiesShow2) |
| C68, C69 | PropertiesPeel | the walk from a node with one input is that node followed by the walk from the input (`PeelProofs.upstream_peel`); hash, validation and compute phases then split the same way (`execute_peel`); C69 computes the node on top (`PassProofs`) |
| C70 | PropertiesId | FxHasher on short names is multiplication by an odd number modulo 2^64 after an injective packing; collisions by inverting the last steps |
| C71 | PropertiesObj | loops as concatenations of lines (`ObjProofs.text_lines`); a separate OBJ reader (`ObjSpec`) run on them |
| C72 | PropertiesLaw | channel by channel from the formula of C21; commutativity and neutral elements of f32 operations |
| C73 | PropertiesNew | C68's peeling with the default attributes; a default grade as a neutral pending operation (`NewProofs.neutral`) |
| C74 | PropertiesClamp | the computation with a changed setting against the one without; witnesses written to disk |
| C75 | PropertiesUndo, PropertiesPower | the six rounded steps as reals with an error term each (`UndoReal.undo_real`), lifted to buffers through C47; for other gammas the errors are carried through both powers (`UndoPower.back_again`) |
| C76–C79 | PropertiesFile | files as OpenImageIO presents them; induction over pixels of a strided copy (`put_pixels_spec`, `put_pixels_over`); the image library is any store that presents what it stored |
| C80, C42 | PropertiesLookup | induction over the search path; rounding of whole numbers through Flocq for the capacity |
| C81 | PropertiesLens | the deformer as an object with a stateful plug-in; induction over copies and uses; refinement of the functional lens of `DeformModel` |
| C82 | PropertiesLine, PropertiesPower | a small calculus of values standing for exact numbers with relative and absolute error (`LineReal.stands`), composed over the operations of the grade, lifted to buffers; `powf` is an oracle, about which C82_curve_partial assumes a relative error (`PowerReal.power_close` carries the errors of the base and the exponent through the power) |
| C83 | PropertiesThread | get, set and restore around each call of a library with a state; induction over sessions, with a library that notes the setting in force |
| C84 | PropertiesMix | C21 composed with the calculus of C82 (`MixReal.composite_stands`), applied twice for the grouping; the exact merge is associative by `ring` |
| C85 | PropertiesFrame | the rounding is characterised by integer inequalities (`FrameProofs.round_nearest`); the conversion of a 32-bit number to f64 is exact by computing the normalisation; C39 and C60 give the file names; C59, C60 and C85 for readers that use the cache follow from C54 (`RunCacheProofs`, PropertiesRun2) |
| C86 | PropertiesMove | the entries of the matrix product are computed exactly where a factor is 0 or 1 and with one rounding elsewhere (`MoveReal.whole_rows`), the calculus of C82 gives the bound; for the bake, the looked-up position is within 0.58 of the pixel's middle and the stretch keeps it within one pixel (`MoveProofs.neighbour`) |
| C87 | PropertiesMeta | baking changes only the colour space's name (`MetaProofs.bake_about`), induction along the row of nodes; the orientation codes by the eight cases against a table of what files mean (MetaSpec) |
| C88 | PropertiesDamage | loop invariant of the strided copy that leaves pixels out (`DamageProofs.put_some_spec`), lifted through the read node |
| C89 | PropertiesBar | executing a node without inputs is computing it (`BarProofs.execute_alone`); cases over the node types |
| C90 | PropertiesBar | invariants of streams and nodes over executions and histories (`StateProofs.execute_inv`, `execute_evolves`) |
| C91 | PropertiesBack | rounding-error analysis of two matrix applications, residual of the library's inverse as hypothesis |
| C92 | PropertiesCrate | exhaustive check of the 256 levels lifted to all pictures; rounding-error analysis of the written level |
| C93 | PropertiesCover | induction over the lenses: monotone rounding to the unit square, error bound on the way back, two-pixel margin |
| C94 | PropertiesTrip | rounding-error analysis of the ways to and from the unit square, scaled by the display's size |
| C95 | PropertiesBrown | sizes of all intermediate floats, exact zeros, error of the ways to and from the unit square; witnesses |
| C96 | PropertiesTint | error of the row sums in real numbers, exact zeros off the diagonal; baking reduced to the per-pixel product |
| C97 | PropertiesLevel | conversions as floors of rounded products, monotone rounding; halves by Flocq's nearest rounding; 16 to 8 bits by kernel computation over all levels |
| C98 | PropertiesBuild | simulation: every modelled function of the build profile, run in both builds side by side, the graph code over node operations that agree |
| C99 | PropertiesRow | induction over the rows of a picture; wrap-around arithmetic of boxes |
| C100 | PropertiesKeep | induction over call histories on the invariant of C01-C08 |
| C101 | PropertiesPlug | exact edge set after disconnecting; induction over histories for nodes used through one input |
| C102 | PropertiesAgain | per node type through the shared cache block; two executions related by the keys of their streams, by induction over the compute loop |
| C103 | PropertiesPart | per option from the colour grading lemmas of C48; two stages: the deformer loop is natural in the pixels, the identity matrix keeps finite numbers |
| C104 | PropertiesScene | a denotational meaning of graphs (SceneSpec) given node by node; executions: every computation is that of a world without cache (C54) and does what its node stands for, by induction over the computing order (SceneRun); uniqueness by induction over the meaning |
| C105 | PropertiesAlike | a bisimulation between graphs up to idle nodes (AlikeSpec); by induction over the meaning of C104 and its uniqueness |
| C106 | PropertiesWrite | the rendering of C60 around the meaning of C104: invariant over frames that each frame's file system is the one the earlier frames wrote; same files by the bisimulation of C105 and uniqueness of pictures |
| C107 | PropertiesEach | trace of the computations of each frame, which contains exactly the nodes reaching the start; each entry writes the file of its writer or nothing; last-writer argument for the files that remain |
| C108 | PropertiesFinish, PropertiesFinish2 | specification of baked pictures without the model's bake; number formats by C97, colours by C48, deformers by C63, windows by C93, crops by C12; one step of the run of C104 and C107 with the specification carried along |
| C109 | PropertiesFresh | two runs side by side: the same hashing and validating, and only the first computation sees the earlier output; modes asked by induction on the chain of consumers; runs on two disks for viewers that bake everything; refuted in general by feedback |
| C110 | PropertiesTotal | statuses of all node computations by cases, carried through the phases of an execution; with C65 total correctness, with C104 the picture; the composition exists by induction upstream in any acyclic graph |
| C111 | PropertiesEdit | settings of created nodes are determined by what they read (extensionality); single calls commute or cancel by cases on the attribute store and the edge list; with C64 the same result, with C105 the same picture |
| C112 | PropertiesReport | report as numbers; gigabytes exact by Flocq (division by 2^30), ratios compared with 100 by monotonic rounding around 1, overstatement by relative error bounds; counts from C08 |
| C113 | PropertiesClient(2) | the C++ calls as a machine over graphs, caches (a box may be moved out) and files; each call projects to at most one graph call on each graph; readings by folding `attr_step` over the projection; a client whose executions are tame is, with each of its caches, a `session` of SoundSpec (`C113_session`) |
| C114 | PropertiesClient3 | every execution relates the cache before and after by a run of lookups (get, and insert after a miss), by a relation lifted through the three phases; so a client's cache is a CacheModel run and C01-C08 apply; statuses and states by induction on the past |
| C115 | PropertiesClient4 | every computation an execution logs touches the cache by a lookup of its own key and perhaps an insertion under it, so a well-behaved client's cache has one of C44's histories; then C44's induction gives the table; C45 the grid |
| C116 | PropertiesProgram | an invariant on the graph behind a history of building calls (each described node is there with its description, edges are exactly the connections) turns the conditions on calls into those of C105, C107, C109 and C110 on graphs; `drawn` is C109's composition read off the calls |
| C117 | PropertiesProgram2 | the invariant of C116 turns a relation on ids into one on the nodes of two graphs; then uniqueness of C105's scene, restricted to what is above the node; attributes that read the same are the same (function extensionality) |
| C118 | PropertiesProgram3 | C117 with the identity on what is above the node; the folds that read the composition off the calls are unchanged by calls aside and return to the same value after a setting or a connection is undone |
| C119 | PropertiesProgram4 | C106 carried to sequences of calls: the graphs built have the composition read off the calls (C116), which is the same for both |
| C120 | PropertiesListing | invariant on the ids of a past; the k-th line by induction over the loop, split at newlines |
| C121 | PropertiesFarm, PropertiesFarm2 | every job is a list of orders, each the composition of the reference calls at its frame; such lists commute and repeat without effect |
| C122 | PropertiesName | induction over the bytes: lossy decoding is the identity exactly on UTF-8 and stops at a zero byte; induction over the parameters |
| C123 | PropertiesShare | refinement: the counted cells against a list of own pictures; invariant that every count is the number of holders and their sum the number of holders in use |
| C124 | PropertiesDevelop, PropertiesDevelop2 | what a program sets up (C116) unfolded along the chain; what is pending on the stream is what the grades' attributes say; then one pixel of the finished picture (C108) |
| C125 | PropertiesMoved | as C124; the chain splits into the grades and the transforms, and the bake applies the one before the other (C108) |
| C126 | PropertiesLayer, PropertiesLayer2 | the two inputs of the merge are the chains of C124; the merged picture has nothing pending, so the file is that picture with the grades below it (C108) |

Details that need saying:

* **C44, C54, C57 (hash collisions).** Digests are 64-bit, so no digest is injective on all byte
  strings. The theorems assume injectivity on a *finite list* of byte strings (`used`) that contains
  everything hashed during the history; the examples compute with a concrete digest that meets this.
* **C28, C52.** Stated for operations that depend on their input values only; C54 covers the real
  node operations with the world (cache, disk) they share.
* **C59, C60.** The reader does not use the image cache in these statements; C54 says when that makes
  no difference. A file that is a directory or device leaves the reader's output unspecified.
* **C39.** For every shell-expansion function; the expansion itself is outside the model.
* **C111.** Two nodes whose attributes read the same are equal as records of functions only by functional
  extensionality, which is the one axiom these theorems depend on.
* **C45, C56, C62.** These theorems depend on the axioms of Coq's real numbers: error bounds (C45,
  C56) are stated on the real value of the floats (`R32`); C62 is stated without reals and proved
  with them.

## Findings (statements proved false of the code)

Each has a theorem with a witness or a proof for all inputs.

Cache (`cache.rs`)
* Re-inserting a cached key leaves its bytes counted for ever (C02_reinsert_refuted).
* An image larger than the capacity panics in debug builds; in release it evicts everything and the
  budget is exceeded (C05).
* An insert that fits exactly evicts needlessly (C06_exact_fit_refuted).

Pixel blocks
* Crop with `black_outside` panics for every image (C14_black_outside_always_panics); `intersect`
  has no effect (C14_intersect_ignored).
* `pixel_buffer` returns one byte per element: floats and 16-bit images are truncated (C17).
* `BlockIndex::row` divides by the height, `column` counts elements (C19).
* In release builds an index wraps for buffers of 2^31 elements or more (C11_overflow_refuted).
* 8-bit values do not survive half floats (C16_half_refuted).
* The combination with an empty box stretches to the empty box's corner (C09_combine_empty_refuted);
  an inverted box makes the row iterator run for about 2^64 steps (C10_inverted_rows_run_away).

Graph
* A removed node still exists, and after any removal every later `add_node` panics (C23). Executing it aborts, or, if a node created later is still there, computes it as if nothing had happened (C23_executing_removed).
* `connect` can leave two sources in a slot, and one source cannot feed two slots (C24).
* Acyclic graphs with inputs reachable by paths of different length panic, depending on slot
  numbers (C27).
* Shared inputs are computed once per path, exponentially often (C52); with different requested
  modes the last one wins (C28_shared_mode_refuted).
* A second node with an id in use hides the first one (C22_duplicate_id_refuted).
* With two sources in a slot the result depends on which was connected last
  (C64_order_of_connecting_refuted).
* A crop converts to linear but leaves the colour-space tag, so an sRGB picture is converted twice
  (C67_own_window_refuted). A merge with one input composites it over colour bars (C66_one_input_refuted).
- C69: a switched-off merge or writer shows the four by four colour bars instead of its input (C69_merge_write_refuted). A switched-off
  viewer inside a graph shows whatever stream was computed just before it, possibly of an unrelated branch (C69_viewer_refuted).
* What aborts the process (C65): an existing file that cannot be decoded followed by a write, a grey
  picture in a merge, a crop with a black border, an empty crop that is then moved and written, unknown
  bake or crop options, refused lens parameters; in debug builds also a picture larger than the cache and
  a second input of a resampler.

Grade (see also C47, C74, C75)
* A grade whose white point equals its black point turns every value of the channel into NaN,
  whatever the mix (C82_white_is_black_refuted); a negative value with a gamma other than one
  becomes NaN (C82_negative_refuted, given what powf does with negative numbers).

Merge
* An RGB foreground counts as transparent: "over" adds it (C21_rgb_foreground_refuted); infinity in B
  leaks through an opaque A as NaN (C21_opaque_infinite_refuted); one-channel images panic.
* The background is placed at the window it had before baking (C49).

Paths, configuration
* Ten or more `#` drop the frame number (C40). The percentage in the configuration file is ignored:
  all of RAM is used (C42), or slightly more than all of it (C42_more_than_all_refuted).
* An absolute configuration name is silently ignored when OPENCOMPGRAPH_CONFIG_PATH is not set
  (C80_absolute_name_refuted); an empty entry in it makes the current directory be searched
  (C80_empty_entry); a broken file in the first directory aborts the process (C80_bad_file_aborts_refuted).
* The configured number of threads is never used (C83_configured_refuted).
* Fractional frames that round to the same number overwrite each other's file (C85_subframes_refuted).
* Read, not proved: `systemmemory.cpp` returns `bytes`, which its Linux branch does not declare.

Lens distortion
* Focal length, film back and pixel aspect of the lens model cannot be set: the plug-in is always told
  30 mm, 36 by 24 mm and 1, whatever the picture (C81_camera_refuted).

Hashes and cached images
* Lens distortion direction is not part of the key (C36).
* Read with enable = 2 ignores the path (C34_read_enable_two_refuted).
* Parameters of unprocessed grade channels are not part of the key but can leak NaN (C34).
* A cache hit leaves pending operations on crop and viewer outputs, so they are applied twice
  (C37, C54_pending_refuted); a failed resample becomes valid on the second run (C37).
* A file replaced on disk is not read again (C54_replaced_file_refuted).
* Two colour conversions can share a table when a name contains `To:` (C44); the table of a stream
  ignores its colour matrix (C57_matrix_ignored).  A table of two channels has a size but aborts (C57_channels_refuted).

Nodes
* Read asks for an input it never uses; a disabled viewer asks for everything (C38).
* A failed write is reported as success (C50).
* Written files always carry the default specification: an sRGB PNG is tagged "Linear", and the pixel
  aspect is lost (C60_metadata_refuted).
* A viewer that bakes everything re-bakes the previous output instead of the file (C53).

Pictures
* An unprocessed channel becomes NaN if the graded value is infinite (C47).
* An identity bake turns an infinite channel into NaN in the other channels (C48).
* A picture whose colour conversion failed is passed on unconverted under the target's name
  (C48_failed_conversion_refuted).
* The rotation centre is ignored, the vertical translation uses the horizontal extent (C46).
* The default transform moves windows that do not start at 0 (C55).
* Baking deformations uses window coordinates as indexes into the picture: one whose window does not
  start at 0 is shifted (C62_origin_refuted); one smaller than its display window is squeezed
  (C62_filled_refuted).
* Several deformers are undone in the order they were applied instead of the reverse, and the mesh is
  deformed relative to the data window but pixels relative to the display window, so the baked picture
  is not what the viewer shows (C63_order_refuted, C63_window_refuted).

Meshes and tables
* The plane is built around the negated centre; one division gives NaN (C56). Zero divisions panic,
  and 65536 x 65536 vertices overflow to 0 in release (C43).
* Table images are one black row too tall for 19 sizes from 413; sizes from 895 panic; size 1 is NaN
  (C45). A failed colour conversion caches an identity table (C45_conversion_table).
* A Transform's translation is turned into a part of the picture's width. The mesh is one unit wide, so it moves
  as set; the bake works in pixels, so a translation by half of the width moves the pixels by half a pixel
  (C86_bake_stays, C86_bake_refuted).

Metadata
* Files count orientations from one (Exif), the library's enumeration from zero, and the number is copied both
  ways. Every file's orientation is misread (upright as mirrored), and written files carry orientation 0, which
  is none (C87_orientation_shifted, C87_written). Merging forgets all metadata (C87_merged): merged anamorphic
  pictures have square pixels.

Names and export
* Two names can share a node id; the node added second does not exist (C70_collision_refuted,
  C70_session_refuted).
* Exporting a mesh to a path that cannot be written aborts the host process; index u32::MAX is written
  as corner 0; triangles name texture coordinates whether or not there are any (C71).

Grades and new nodes
* The clamp_black, clamp_white and premult settings of a grade are never used, though clamp_black is on
  by default (C74).
* A reversed grade throws the reversed gamma away unless slope is one and shift zero, and treats values
  above one as a straight line (C75).
* A newly added crop wipes the picture; followed by a newly added transform it aborts the process (C73).
* The mix of an "add" merge fades only the second input, so the inputs cannot be swapped (C72_swap_refuted).

Files
* The data window of a file is moved by plus instead of minus the display window's corner, so pictures
  whose display window is off the origin are misplaced by twice the corner (C76_any_origin, C77_place_refuted).
* `std::max(num_channels, 4)` discards its result: 8 and 16 bit files of five or more channels are written
  past the end of the buffer (C77_many_channels_overrun); double and integer formats abort the process.
* A grey file gives an empty picture with status valid (C77_grey_refuted).
* JPEG and PNG files hold sRGB pixels but say Linear, so reading them back changes the picture; endings in
  capitals are written as linear (C76_srgb_refuted, C76_upper_case).
* Resampling forgets where the picture was in the frame, and garbles 8 and 16 bit pictures of three channels,
  which a viewer makes of float RGB files (C78).
* Failed writes are reported as success in C++ as well (C50_library_failure_hidden).
* A file that cannot be decoded to the end is shown as a partly white picture with status valid, and stays so
  in the cache when the file is complete (C88_reported_refuted, C88_completed_refuted).
* Viewers, and writers that are off, show the colour bars without a warning when nothing is connected;
  a reader whose path is a folder is valid and shows what was computed last
  (C89_silent_refuted, C89_folder_refuted).
* A Transform without an inverse (a scale of zero) is not undone by its inverted twin, which applies the same
  matrix again, silently (C91_no_inverse, C91_undone_refuted).
* Writing through the Rust image library rounds samples down, so white (255) read and written again is 254
  whatever power function is used; its reader decodes alpha as a colour and ends the program on grey or
  16-bit pictures (C92_back_refuted, C92_alpha_refuted, C92_read_refuted). Nodes use OpenImageIO instead.
* Baking a transform keeps the picture's window, so whatever it moves outside is lost, while a lens grows
  the window (C93_transform_refuted, C93_others, C93_lens).
* The radial lens deformer (which no node makes yet) doubles the r^4 term of its documented formula, mixes
  pixels and displays in it, and its inverse is not one (C95_formula_refuted, C95_resolution_refuted,
  C95_inverse_refuted).
* Floats are cut off, not rounded, when they become 8 or 16 bit levels (C97_nearest_refuted).
* A Resample node with two inputs, or a picture larger than the whole cache, crashes debug builds and not release builds (C98_assertion_refuted, C98_large_picture_refuted).
* The row of a box compares its number with the width of the box to say whether it exists (C99_box_row_refuted); near the ends of the i32 range release builds misplace the centre of a box and give large boxes wrong areas (C99_release_refuted).
* Asked to evict exactly as many bytes as its oldest images hold, the cache evicts one image more; asked for no bytes it still evicts one (C100_evict_bytes_refuted).
* Disconnecting the first input of a node whose second input was connected later leaves it connected (C101_disconnect_refuted).
* Changing a grade's clamp or premult setting changes no picture but makes everything after it miss the cache (C102_clamp_refuted).
* A viewer baking colour space and grade names its picture after the target space even when the colour library failed (C103_failed_name_refuted); baking only the colour space does not.
* Inputs a node does not use (beyond the second of a merge, beyond the first of others) are asked for nothing. A reader asked for nothing passes on whatever was computed just before it, and that replaces its picture for the other nodes it feeds (C104_unused_input_refuted): a merge of A and B, each through a null node, with A also connected to the third slot, shows B on B.
* Executing an unchanged graph again can show something else: a viewer that
  bakes everything asks its inputs for no pixels, a reader then returns what the
  graph showed last, and the nodes between grade it once more each time (C109).
  Such a viewer never looks at a file.
* Connections that were replaced are not restored by connecting the old sources again (C111): with sources
  1 and 2 in inputs 0 and 1 of a merge, connecting 3 and 5 there and then 1 and 2 again leaves 3 in input 0,
  and another picture is shown (`C111_replug_refuted`; cause as in C24).
* The percentages in the cache report are not percentages (C112): `hit_ratio` is hits divided by misses and
  `insert_ratio` inserts divided by evictions; three answered lookups of four are reported as 300%, no miss as
  `inf%`, no lookup as `NaN%` (`C112_percentage_refuted`, `C112_no_misses`).
* A second node created under a name is lost (C113): `create_node` gives a handle with the new type and the same id,
  which addresses the first node; settings made through it go to the first node or nowhere (`C113_namesake_refuted`).
* A merge node set to a mode number that stands for no formula shows one black opaque pixel and reports itself valid
  (`C66_unknown_mode`).
* A node can feed only one input of another (C116_itself_refuted): connecting a reader
  to both inputs of a merge moves the first connection, so the picture is merged with the
  default picture, not with itself; every call reports success.
* The text of a graph still lists nodes that were deleted (C120_deleted_refuted), and shows the first node twice when two were created under one identifier (C120_namesake_refuted).
* The lens model reads names up to a zero byte, but the interface takes Rust strings and drops their length: a
  name given without a zero byte of its own is heard together with whatever follows it in memory
  (`C122_unterminated_refuted`; the eleven names in the code do end with one). A parameter name that is not UTF-8
  ends the process when the lens model is described (`C122_latin_refuted`), and the description has every name
  filled up with zero bytes to 100 (`C122_zero_bytes_refuted`).
* The state of a stream is "invalid" for ever: nothing sets it (C90_state_refuted; C90_state_partial).

## Trusted base

* The Coq 8.16.1 kernel, including `vm_compute`.
* Axioms. `Print Assumptions` is under each theorem. Of the 611 theorems in MANIFEST.json, 525 are "Closed under
  the global context". The others depend on axioms of the standard library only (real numbers, mostly through Flocq,
  and equality of functions):
  * `ClassicalDedekindReals.sig_forall_dec`, `ClassicalDedekindReals.sig_not_dec`, `Classical_Prop.classic`, `FunctionalExtensionality.functional_extensionality_dep`:
    `C42_whole_memory`, `C45_identity_cube`, `C45_large_cubes_partial`, `C55_offset`,
    `C56_texture_coordinates`, `C56_positions_partial`, `C57_alpha`, `C62_kept`, `C62_default_transforms`,
    `C75_gamma_one_partial`, `C75_curve_partial`, `C75_reversed_gamma`, `C82_blend_partial`,
    `C82_curve_partial`, `C82_gamma_partial`, `C84_formula`, `C84_grouping`, `C86_formula`, `C86_vertices`,
    `C86_bake_stays`, `C86_bake_refuted`, `C91_undone_partial`, `C91_fetched_partial`, `C92_write`,
    `C92_back_partial`, `C93_lens`, `C93_transform_refuted`, `C94_nodes`, `C94_bake`, `C94_exact_refuted`,
    `C95_zero_partial`, `C95_formula_refuted`, `C96_rgba`, `C96_rgb`, `C96_alpha`, `C96_scale`,
    `C96_scale_only`, `C97_bytes`, `C97_words`, `C97_order_bytes`, `C97_order_words`, `C97_shades_bytes`,
    `C97_shades_words`, `C97_halves`, `C97_halves_back`, `C108_bake`, `C108_colours`, `C108_space`,
    `C108_written`, `C108_session`, `C108_files`, `C108_kept`, `C112_sizes`, `C112_ratio_partial`,
    `C112_insert_ratio_partial`, `C112_overstated`, `C112_no_misses`, `C115_identity`, `C116_picture`,
    `C116_files`, `C121_files`, `C124_files`, `C124_files_rgb`, `C125_files`, `C126_files`,
    `C126_graded_files`
  * `ClassicalDedekindReals.sig_forall_dec`, `FunctionalExtensionality.functional_extensionality_dep`:
    `C97_nearest_refuted`, `C108_pixel`, `C108_pixel_rgb`, `C108_pixel_alpha`, `C116_order`, `C124_outcome`,
    `C124_outcome_rgb`, `C125_outcome`, `C126_outcome`, `C126_graded_outcome`
  * `FunctionalExtensionality.functional_extensionality_dep`:
    `C111_same_readings`, `C111_write_undone`, `C111_last_write`, `C111_order_of_writes`, `C111_shown_again`,
    `C117_same_setup`, `C118_again`, `C118_set_back`, `C119_same_files`, `C121_same_files`
* The reading of Rust: wrapping/panicking integer arithmetic per profile, saturating float-to-int
  casts, `as` truncation, IEEE arithmetic with round-to-nearest-even, `Rc`/`Box` as values (for the
  pixels of streams this is C123; nothing else is changed through an `Rc`).
* The reading of crates: `petgraph` 0.5.1 `StableGraph` (index allocation with free list, newest edge
  first in adjacency, `Bfs`-like traversal written in `graphiter.rs`); `linked_hash_map` (insertion at
  the back, `get_refresh` moves to the back); `half` 1.x conversions (round to nearest even, checked
  by exhaustive examples); `rustc-hash` 1.1.0 on 64-bit little-endian machines (C70); `nalgebra` matrix products accumulate left to right; integer formatting
  with zero padding.
* Sorting (`sort_by` in `graph.rs`) is an arbitrary function that returns a sorted permutation.
* Hashing: a digest is an arbitrary function from the byte string fed to the hasher to a non-zero
  64-bit number; integers little endian, strings with a final 0xff byte.
* The reading of OpenImageIO (C76–C79): `open`/`spec`/`read_image` with a pixel stride copies each pixel's
  channels to consecutive places; a stored file is presented as it was asked for (lossless formats).
* External calls are arbitrary functions (record `externals`, section parameters): image reader and
  writer, file-system queries, colour-space conversion, resampling, lens distortion, `powf`, sine and
  cosine, shell expansion, printing of floats and writing of text files (C71). They are deterministic; their results may be any value, but an image read
  has a well-formed block where a theorem says so.
* The model's correspondence to the Rust text was established by reading; nothing of the project was
  compiled or run.
