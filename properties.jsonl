{"id": "C01", "title": "Image cache honours its byte budget", "statement": "After any sequence of insert / get / evict / evict_bytes / set_capacity_bytes calls in which no inserted image was larger than the capacity in force when it was inserted, the total size in bytes of the images the cache still holds is at most capacity_bytes().", "quantifier": "every capacity, every finite history of cache calls, every image size not above the capacity at its insertion (re-insertion of an existing key included)", "why_tests_cant": "the bound is an invariant over unbounded call histories with arbitrary sizes; a test fixes one history", "anchors": ["src/cache.rs::CacheImpl::insert", "src/cache.rs::CacheImpl::evict_bytes", "src/cache.rs::CacheImpl::set_capacity_bytes"]}
{"id": "C02", "title": "Reported cache usage is the real usage", "statement": "When every insert is for a key that is not currently cached (the get-miss-then-insert pattern used by every node), used_bytes() is always exactly the sum of the sizes of the images retained; in general it is never below that sum, so the subtraction in evict can never underflow.", "quantifier": "every finite history of cache calls; equality for histories that never re-insert a cached key, lower bound for all histories", "why_tests_cant": "needs an inductive invariant across evictions triggered inside inserts", "anchors": ["src/cache.rs::CacheImpl::used_bytes", "src/cache.rs::CacheImpl::evict", "src/cache.rs::CacheImpl::insert"]}
{"id": "C03", "title": "Cache lookup is faithful", "statement": "A get for a key returns either nothing or exactly the image most recently inserted under that key; an image just inserted into a cache with non-zero capacity is returned by an immediately following get, and a lookup never changes which images are retained.", "quantifier": "every history of cache calls and every key", "why_tests_cant": "quantifies over all histories and interleavings of keys", "anchors": ["src/cache.rs::CacheImpl::get", "src/cache.rs::CacheImpl::insert"]}
{"id": "C04", "title": "Eviction is strictly least-recently-used", "statement": "At every moment, if an image is retained then every image inserted or successfully looked up more recently is retained as well (unless its key was superseded): the retained keys are always the most recently used ones, in order of last use.", "quantifier": "every history of cache calls", "why_tests_cant": "recency order is a property of the whole history", "anchors": ["src/cache.rs::CacheImpl::get", "src/cache.rs::CacheImpl::evict", "src/cache.rs::CacheImpl::insert"]}
{"id": "C05", "title": "An image larger than the cache does not break the budget", "statement": "Inserting an image larger than the capacity neither crashes the process nor leaves the cache holding more bytes than its capacity.", "quantifier": "every cache state, every image size above capacity, debug and release arithmetic", "why_tests_cant": "the outcome depends on the arithmetic profile (checked or wrapping subtraction) and on arbitrary sizes", "anchors": ["src/cache.rs::CacheImpl::insert"]}
{"id": "C06", "title": "Nothing is evicted that could have stayed", "statement": "An insert evicts only when the budget would otherwise be exceeded, and then evicts only the shortest least-recently-used prefix that makes the new image fit.", "quantifier": "every reachable cache state and every image no larger than the capacity", "why_tests_cant": "minimality of the evicted prefix has to hold for all size combinations, including exact fits", "anchors": ["src/cache.rs::CacheImpl::insert", "src/cache.rs::CacheImpl::evict_bytes"]}
{"id": "C07", "title": "A zero-capacity cache stores nothing and shrinking always takes effect", "statement": "A cache with capacity 0 never retains an image, and after set_capacity_bytes(n) the retained images total at most n bytes; set_capacity_bytes(0) on a cache whose accounting is exact drops every non-empty image.", "quantifier": "every cache state reachable without oversized insertions and every new capacity", "why_tests_cant": "all states and all new capacities", "anchors": ["src/cache.rs::CacheImpl::set_capacity_bytes", "src/cache.rs::CacheImpl::insert"]}
{"id": "C08", "title": "Cache diagnostics are conserved", "statement": "hits + misses equals the number of get calls; the number of retained images equals accepted inserts minus replacements minus evictions.", "quantifier": "every finite history of cache calls", "why_tests_cant": "counting invariant over all histories", "anchors": ["src/cache.rs::CacheImpl::get", "src/cache.rs::CacheImpl::insert", "src/cache.rs::CacheImpl::evict", "src/cache.rs::CacheImpl::len"]}
{"id": "C09", "title": "Bounding-box union and intersection are exact on pixels", "statement": "A pixel lies in intersection(a,b) exactly when it lies in both boxes; combine(a,b) contains every pixel of both boxes and is contained in every box that contains two non-empty boxes a and b. The centre of a box is its middle and, without negative coordinates, one of its pixels.", "quantifier": "all integer boxes (empty and inverted ones included for intersection) and all pixels", "why_tests_cant": "infinite family of boxes and pixels with touching, nested, inverted and disjoint cases", "anchors": ["src/bbox/bbox2di.rs::BBox2Di::combine", "src/bbox/bbox2di.rs::BBox2Di::intersection", "src/bbox/bbox2di.rs::BBox2Di::center"]}
{"id": "C10", "title": "Box iteration visits every pixel once", "statement": "Iterating the rows of a well-formed box and the columns of each row enumerates exactly the box's pixels, each exactly once, width()*height()=area() of them, in raster order.", "quantifier": "all boxes with min<=max whose extent fits in i32", "why_tests_cant": "unbounded box sizes", "anchors": ["src/bbox/bbox2di.rs::rows", "src/bbox/bbox2di/row_iter.rs::BBox2DRowIterator", "src/bbox/bbox2di/rows_iter.rs::BBox2DRowsIterator"]}
{"id": "C11", "title": "Pixel addressing is a bijection", "statement": "For a block with at least one channel, the pixel index of (x,y) is non-negative exactly when (x,y) lies in the block; distinct pixels occupy disjoint channel ranges inside the buffer; get_xy of any element index in the buffer recovers the pixel that owns it.", "quantifier": "all block sizes w,h>=0, num_channels>=1 and all integer x,y (no i32 overflow)", "why_tests_cant": "quantifies over all sizes and coordinates", "anchors": ["src/pixelblock/blocksize.rs::get_index", "src/pixelblock/blocksize.rs::BlockSize::get_xy", "src/pixelblock/utils.rs::get_pixel_index"]}
{"id": "C12", "title": "Cropping copies exactly the right pixels", "statement": "Cropping an image of any pixel type to a window gives a block of the window's size in which every pixel inside both windows keeps its value at the same image coordinate and every other pixel is zero; the operation never reads or writes out of bounds.", "quantifier": "all images, all channel counts, all well-formed data and crop windows (disjoint, nested, touching, overlapping, negative origin)", "why_tests_cant": "needs index arithmetic for every window pair, not a sample", "anchors": ["src/pixelblock/pixelblock.rs::PixelBlock::from_pixel_block", "src/ops/imagecrop.rs::crop_image_in_place"]}
{"id": "C13", "title": "Cropping twice equals cropping once", "statement": "Cropping to window A and then to a window B inside A gives the same pixels as cropping directly to B.", "quantifier": "all images and all well-formed windows B within A", "why_tests_cant": "algebraic law over all images and windows", "anchors": ["src/pixelblock/pixelblock.rs::PixelBlock::from_pixel_block"]}
{"id": "C14", "title": "Crop options never crash the process", "statement": "crop_image_in_place succeeds for every combination of reformat / black_outside / intersect and produces an image whose pixel block dimensions equal its data window.", "quantifier": "all images, all well-formed crop windows, all option combinations", "why_tests_cant": "the failing combination is a universally failing branch that no test in the repository exercises", "anchors": ["src/ops/imagecrop.rs::crop_image_in_place"]}
{"id": "C15", "title": "Resizing a pixel buffer gives a fully initialised buffer of the right size", "statement": "Resizing a data block gives exactly width*height*num_channels elements of the requested type; when the type is unchanged, existing elements that fit keep their value at the same index; every other element holds the type's full-scale value (1.0, 255 or 65535), so no element is left undefined.", "quantifier": "all block sizes, data types and contents", "why_tests_cant": "all sizes and contents", "anchors": ["src/pixelblock/datablock.rs::DataBlock::data_resize"]}
{"id": "C16", "title": "Integer pixel formats survive a round trip through working formats", "statement": "Converting 8-bit pixels to 32-bit float or 16-bit integer and back returns every original value, and likewise 16-bit integers through float; conversion never changes the number or the order of elements.", "quantifier": "all 256 (resp. 65536) pixel values, all buffer lengths, every supported type pair", "why_tests_cant": "every value of the format; truncating casts fail for isolated values only", "anchors": ["src/pixelblock/utils.rs::convert_datablock_enum_to_f32", "src/pixelblock/utils.rs::convert_datablock_enum_to_u8", "src/pixelblock/utils.rs::convert_datablock_enum_to_u16", "src/pixelblock/datablock.rs::DataBlock::convert_into_data_type"]}
{"id": "C17", "title": "The exported pixel buffer contains the whole image", "statement": "The byte buffer returned by StreamData::pixel_buffer has as many bytes as size_bytes() reports for the image.", "quantifier": "all images of every pixel data type", "why_tests_cant": "fails for whole data types rather than single inputs; no test compares lengths", "anchors": ["src/stream.rs::StreamDataImpl::pixel_buffer", "src/pixelblock/utils.rs::transmute_slice_f32_to_u8"]}
{"id": "C18", "title": "Image size in bytes is exact", "statement": "size_bytes() of a block is width*height*num_channels*(bytes per channel), which is the size charged to the cache.", "quantifier": "all block sizes and data types", "why_tests_cant": "all sizes", "anchors": ["src/pixelblock/datablock.rs::DataBlock::size_bytes", "src/pixelblock/datatype.rs::DataType::size_bytes", "src/cache.rs::CachedImage::size_bytes"]}
{"id": "C19", "title": "Block index row and column agree with pixel coordinates", "statement": "For a block index built from coordinates (x,y), row() is y and column() is the column of x.", "quantifier": "all non-empty block sizes and in-range coordinates", "why_tests_cant": "the formulae agree on square blocks, so square test images cannot tell", "anchors": ["src/pixelblock/pixelblock/index.rs::BlockIndex::row", "src/pixelblock/pixelblock/index.rs::BlockIndex::column", "src/pixelblock/pixelblock/row.rs::Row"]}
{"id": "C20", "title": "Image sampling never leaves the image", "statement": "Sampling at any floating-point coordinate (NaN and infinities included) reads one in-bounds pixel of a non-empty image, namely the pixel nearest to the clamped coordinate, and never indexes outside the buffer.", "quantifier": "all float coordinates (all 2^32 bit patterns each) and all non-empty image sizes", "why_tests_cant": "all float bit patterns including special values", "anchors": ["src/pixel.rs::get_pixel_rgba", "src/pixel.rs::get_pixel_rgb"]}
{"id": "C21", "title": "Merge computes the Porter-Duff formula over the union window", "statement": "Merging A and B yields an image on the smallest window containing both data windows where every pixel is the documented formula (add, over, multiply with mix) of the two source pixels at that image coordinate, with black transparent pixels outside a source's own window.", "quantifier": "all RGB/RGBA float images, all window placements, modes and mix values", "why_tests_cant": "all window placements and pixel values", "anchors": ["src/ops/imagemerge.rs::merge", "src/ops/imagemerge.rs::get_pixel_rgba"]}
{"id": "C22", "title": "Added nodes are found and keep their identity", "statement": "After adding nodes with distinct ids (and no removals), every id is found, resolves to its own node, and operations on one node do not affect the attributes, type or status of another.", "quantifier": "every history of graph calls without node removal, every id", "why_tests_cant": "all histories", "anchors": ["src/graph.rs::GraphImpl::add_node", "src/graph.rs::GraphImpl::find_node_index_from_id", "src/graph.rs::GraphImpl::node_exists"]}
{"id": "C23", "title": "Removing a node removes it", "statement": "After remove_node succeeds the node no longer exists (node_exists is false), and further edits of the graph such as adding nodes keep working.", "quantifier": "every graph and node", "why_tests_cant": "needs the interaction of removal with every later operation", "anchors": ["src/graph.rs::GraphImpl::remove_node", "src/graph.rs::GraphImpl::node_exists", "src/graph.rs::GraphImpl::add_node"]}
{"id": "C24", "title": "Connecting an input slot replaces the previous source", "statement": "After connect(src,dst,slot) the slot is fed by src and by nothing else, and other slots keep their source.", "quantifier": "every history of add/connect/disconnect calls, every slot", "why_tests_cant": "history-dependent: the failing case needs a specific order of earlier connections", "anchors": ["src/graph.rs::GraphImpl::connect", "src/graph.rs::GraphImpl::disconnect_input"]}
{"id": "C25", "title": "Inputs are delivered in slot order", "statement": "The streams handed to a node when it is computed are those of its connected sources (other than itself), ordered by input slot number, each source once.", "quantifier": "every graph and every node", "why_tests_cant": "all graphs and connection orders", "anchors": ["src/graph.rs::GraphImpl::find_direct_upstream_nodes", "src/graphiter.rs::UpstreamEvalSearch::next"]}
{"id": "C26", "title": "Upstream traversal visits exactly the reachable nodes, nearest first", "statement": "The upstream traversal of a node terminates on every graph (cyclic ones included), visits every node that can reach it exactly once and no other node, in non-decreasing order of shortest distance, and reports that distance.", "quantifier": "every graph any history of calls can build, cyclic ones included, and every start node", "why_tests_cant": "all graphs", "anchors": ["src/graphiter.rs::UpstreamEvalSearch::next", "src/graph.rs::GraphImpl::find_all_upstream_nodes"]}
{"id": "C27", "title": "Executing an acyclic graph does not crash", "statement": "execute on any acyclic graph whose nodes all exist completes without panicking.", "quantifier": "every acyclic graph, every start node, every list of frames", "why_tests_cant": "the crash needs an input reachable over two paths of different length; linear test graphs never show it", "anchors": ["src/graph.rs::GraphImpl::execute_frame", "src/graph.rs::GraphImpl::compute_node_input_hash_values"]}
{"id": "C28", "title": "Execution on level graphs equals the recursive meaning of the graph", "statement": "On graphs where every input is one level further than its consumer (trees in particular), execute succeeds and the output is the value defined recursively: each node's operation applied to the results of its inputs in slot order.", "quantifier": "every such graph of any size, every frame, every choice of node operations that depend only on their inputs", "why_tests_cant": "refinement between the scheduling algorithm and a recursive denotation for all graphs", "anchors": ["src/graph.rs::GraphImpl::execute_frame", "src/graph.rs::GraphImpl::compute_node_output"]}
{"id": "C29", "title": "A cyclic graph is detected rather than looping for ever", "statement": "execute on a graph in which the start node can reach a cycle never loops for ever: the hash phase stops with a panic before validation starts.", "quantifier": "every finite graph with a reachable cycle through at least two nodes", "why_tests_cant": "termination over all cyclic graphs", "anchors": ["src/graph.rs::GraphImpl::execute_frame", "src/graphiter.rs::UpstreamEvalSearch::next"]}
{"id": "C30", "title": "Graph state and execution status follow the documented machine", "statement": "A graph is Uninitialized until a node is added, Dirty after every successful structural edit or attribute write on an existing node, and becomes Clean only when an execute call succeeds for all frames; execute on an unknown node reports Error; status is Success exactly when the last execute completed every frame.", "quantifier": "every history of graph calls and every node behaviour", "why_tests_cant": "state machine property over all histories", "anchors": ["src/graph.rs::GraphImpl::state", "src/graph.rs::GraphImpl::execute_status", "src/graph.rs::GraphImpl::execute"]}
{"id": "C31", "title": "Execution stops at the first failing frame and reports it", "statement": "If computing some frame fails, later frames are not computed, the graph stays in its previous state, and the status is Error (or Uninitialized if a node reports that).", "quantifier": "every graph, every list of frames, every failing position", "why_tests_cant": "all positions in all frame lists", "anchors": ["src/graph.rs::GraphImpl::execute"]}
{"id": "C32", "title": "Attribute writes are read back and do not leak", "statement": "Setting an attribute that exists on a node, with the attribute's type, makes the next get return that value (strings, integers and floats bit for bit) and leaves every other attribute of the node and every attribute of other nodes unchanged. The colour operation or deformer that a node adds carries the node's values.", "quantifier": "all node types, all attributes, all values, all histories of writes", "why_tests_cant": "all node kinds, attribute pairs and values", "anchors": ["src/node.rs::NodeImpl::set_attr_f32", "src/attrblock.rs::AttrBlock", "src/node/grade.rs", "src/node/viewer.rs", "src/node/crop_image.rs"]}
{"id": "C33", "title": "Unknown attributes and nodes are inert", "statement": "Reading an attribute that the node does not have yields the type's zero value; writing one changes no attribute of any node; operations on unknown node ids change nothing.", "quantifier": "all node types, all names not in the attribute list, all ids not in the graph", "why_tests_cant": "infinitely many names", "anchors": ["src/node.rs::NodeImpl::get_attr_i32", "src/graph.rs::GraphImpl::set_node_attr_i32"]}
{"id": "C34", "title": "Two node settings with the same hash input produce the same image", "statement": "For crop, merge, resample, grade, transform and viewer nodes, if two attribute settings feed identical bytes to the cache key then every attribute that can influence the computed image is equal (an enabled node compared with an enabled one).", "quantifier": "all pairs of attribute settings, all float bit patterns", "why_tests_cant": "injectivity over all pairs of settings", "anchors": ["src/node/crop_image.rs::attr_hash", "src/node/merge_image.rs::attr_hash", "src/node/resample_image.rs::attr_hash", "src/node/viewer.rs::attr_hash", "src/colorop/colorgrade.rs::Hash", "src/deformer/transform.rs::Hash"]}
{"id": "C35", "title": "Float hashing distinguishes every bit pattern", "statement": "The hashable form of a 32-bit float is different for any two different bit patterns (signed zeros, denormals, infinities and NaN payloads included) and all intermediate values fit their machine types.", "quantifier": "all pairs of the 2^32 bit patterns", "why_tests_cant": "2^64 pairs", "anchors": ["src/hashutils.rs::integer_decode_f32"]}
{"id": "C36", "title": "Lens distortion settings are all part of the cache key", "statement": "Two lens-distortion settings that distort differently never share a cache key.", "quantifier": "all pairs of settings", "why_tests_cant": "needs a pair of settings differing in one ignored field", "anchors": ["src/deformer/tde4_classic.rs::Hash", "src/node/lens_distort.rs"]}
{"id": "C37", "title": "A warm cache gives the same result as a cold one", "statement": "For every cached image node, computing with the image already in the cache yields the same output stream as computing it from scratch with the same attributes and inputs.", "quantifier": "all inputs, attributes and cache contents produced by earlier computations", "why_tests_cant": "relates two executions over all cache histories", "anchors": ["src/node/crop_image.rs", "src/node/merge_image.rs", "src/node/resample_image.rs", "src/node/read_image.rs", "src/node/viewer.rs"]}
{"id": "C38", "title": "Validation returns one mode per input and never asks for more than requested", "statement": "Every node's input validation returns exactly one compute mode per input node, each a subset of the mode requested from the node itself (for an enabled viewer), and only the inputs the node reads get a non-empty mode.", "quantifier": "all node types, all attribute settings, all numbers of inputs, all requested modes", "why_tests_cant": "all input counts and modes", "anchors": ["src/node/null.rs", "src/node/merge_image.rs", "src/node/viewer.rs"]}
{"id": "C39", "title": "Frame padding in file paths is replaced correctly", "statement": "expand_string replaces the first run of 1 to 9 '#' characters by the frame number, zero-padded to at least that many characters, and leaves every other character unchanged; different frames then give different paths.", "quantifier": "all path strings and all i32 frame numbers", "why_tests_cant": "all strings and frames", "anchors": ["src/pathutils.rs::expand_string", "src/pathutils.rs::find_frame_padding_index_range", "src/pathutils.rs::create_expanded_string"]}
{"id": "C40", "title": "Long frame padding still distinguishes frames", "statement": "A path with a run of ten or more '#' characters expands to different file names for different frames.", "quantifier": "all paths with at least ten consecutive '#'", "why_tests_cant": "falls outside the enumerated format cases", "anchors": ["src/pathutils.rs::create_expanded_string"]}
{"id": "C41", "title": "Enumeration codes decode safely", "statement": "Decoding any i32 into a bake option, merge mode, data type, bit depth or other API enumeration yields the enumerator with that code when there is one and the designated invalid value otherwise; encoding then decoding is the identity.", "quantifier": "all 2^32 integers", "why_tests_cant": "all integers", "anchors": ["src/cxxbridge.rs::From<i32>"]}
{"id": "C42", "title": "The configured cache size is honoured", "statement": "With a RAM percentage p between 0 and 100 the cache capacity is p percent of the machine's memory.", "quantifier": "all percentages and memory sizes", "why_tests_cant": "arithmetic claim for all p; the clamp is wrong for all but one value", "anchors": ["src/config.rs::ram_capacity_percent", "src/config.rs::ram_capacity_bytes"]}
{"id": "C43", "title": "Mesh index buffers are complete and in range", "statement": "For a plane with at least one division in each direction the triangle, border-line and wireframe index buffers are filled completely and every index refers to an existing vertex; the triangles cover each face with two triangles with the same orientation.", "quantifier": "all division counts >= 1 and all sizes", "why_tests_cant": "all division counts", "anchors": ["src/geom/plane.rs"]}
{"id": "C44", "title": "Colour LUT cache keys identify the conversion", "statement": "Two colour-space conversions with different source or destination colour space never share a 3D LUT cache key.", "quantifier": "all pairs of colour space names", "why_tests_cant": "needs a collision between unequal names; random tests do not find it", "anchors": ["src/colorlutimage.rs::get_color_transform_3dlut"]}
{"id": "C45", "title": "Identity LUT image has the right shape and values", "statement": "The identity 3D LUT of edge n has n*n*n RGB texels and texel (r,g,b) holds the grid value of its coordinates; the LUT image dimensions hold exactly n^3 pixels.", "quantifier": "all n from 2 up to the largest n whose n^3 fits in i32", "why_tests_cant": "height is computed with float rounding, which may fail for isolated n", "anchors": ["src/colorlutimage.rs::get_3dlut_image_size", "src/colorlutimage.rs::generate_identity_3dlut"]}
{"id": "C46", "title": "The transform pivot and the vertical translation act as named", "statement": "Rotating about a centre leaves the centre fixed, and the vertical translation of a Transform node depends on the image height, not on its horizontal extent.", "quantifier": "all matrices, centres and image windows", "why_tests_cant": "the built-in defaults (zero centre, square window) hide the difference", "anchors": ["src/math/xform.rs::rotate", "src/deformer/transform.rs::_apply"]}
{"id": "C47", "title": "Grading leaves unprocessed channels alone", "statement": "Channels whose process flag is 0 keep their value under a colour grade, and processed channels with mix 1 hold the graded value.", "quantifier": "all pixel values and grade parameters", "why_tests_cant": "NaN and infinities only appear for particular parameter and pixel combinations", "anchors": ["src/ops/colorgrade.rs::grade", "src/ops/colorgrade.rs::apply_color_grade_inplace"]}
{"id": "C48", "title": "Baking consumes the stream's pending operations exactly once", "statement": "Baking everything applies the stream's colour matrix, then each enabled colour operation in the order they were added, then the deformers, and leaves the stream with no pending operations, so that a second bake changes nothing further.", "quantifier": "all streams with any number of pending operations", "why_tests_cant": "all lists of operations", "anchors": ["src/ops/bake.rs::do_process", "src/coloroputils.rs::apply_color_ops_to_pixels", "src/deformutils.rs::apply_deformers_to_pixels"]}
{"id": "C49", "title": "Merge places the background at its baked position", "statement": "When the background of a merge carries deformations that move its data window, the merged image places the background at the deformed window.", "quantifier": "all backgrounds and deformations", "why_tests_cant": "requires a deformation that changes the window", "anchors": ["src/node/merge_image.rs"]}
{"id": "C50", "title": "Failed writes are reported", "statement": "If the image file cannot be written the write node, and so the execution, reports an error.", "quantifier": "all failures of the image writer", "why_tests_cant": "depends on the behaviour of an external writer", "anchors": ["src/node/write_image.rs", "src/imageio.rs::write_image"]}
{"id": "C51", "title": "Release and debug builds agree", "statement": "Any sequence of cache calls that completes in a debug build produces the same cache contents, counters and lookup results in a release build.", "quantifier": "every cache state and every finite history of cache calls", "why_tests_cant": "relates two builds over all histories", "anchors": ["src/cache.rs", "Cargo.toml"]}
{"id": "C52", "title": "Each upstream node is computed once per frame", "statement": "execute computes every node upstream of the start node exactly once for each frame.", "quantifier": "every graph whose execution succeeds, every list of frames", "why_tests_cant": "the number of computations depends on the number of paths, which is only visible on graphs with shared inputs", "anchors": ["src/graph.rs::GraphImpl::execute_frame"]}
{"id": "C53", "title": "A baking viewer shows the file its reader names", "statement": "When an enabled viewer with any valid bake option is executed with a read node as its input, the output is the bake of what the read node reads from its file.", "quantifier": "all files, all bake options, all earlier outputs of the graph", "why_tests_cant": "the result depends on what the graph output before, which a single execution of a fresh graph does not vary", "anchors": ["src/node/viewer.rs::validate_inputs", "src/node/read_image.rs::compute", "src/graph.rs::GraphImpl::execute_frame"]}
{"id": "C54", "title": "Results do not depend on what the image cache holds", "statement": "Take any number of graphs sharing an image cache, and any sequence of calls on them, lookup table requests, evictions, capacity changes and changes to files that are not read. Every execution that returns gives the same output stream, statuses and written files as the same execution without a cache, provided that: the hashed byte strings do not collide; read files do not change and are not written to; all lens nodes have one direction; channels a grade does not process have default attributes; and crop, baking viewer and resample nodes that use the cache have no pending operations on their input and a working resampler.", "quantifier": "every session, every graph, every cache capacity, every frame list, both profiles", "why_tests_cant": "relates executions over all histories of the shared cache and all pairs of nodes whose keys could collide", "anchors": ["src/cache.rs", "src/node/traits.rs::cache_hash", "src/graph.rs::GraphImpl::execute", "src/node/crop_image.rs::compute", "src/node/grade.rs::compute", "src/node/lens_distort.rs::compute", "src/node/merge_image.rs::compute", "src/node/null.rs::compute", "src/node/read_image.rs::compute", "src/node/resample_image.rs::compute", "src/node/transform.rs::compute", "src/node/viewer.rs::compute", "src/node/write_image.rs::compute", "src/colorlutimage.rs"]}
{"id": "C55", "title": "A Transform node with its default settings leaves the picture in place", "statement": "A newly created Transform node (no translation, no rotation, unit scale) maps every position of every image to itself.", "quantifier": "all image windows and positions", "why_tests_cant": "the deviation depends on where the window starts, which is zero for most test images", "anchors": ["src/deformer/transform.rs::_apply", "src/node/transform.rs::new"]}
{"id": "C56", "title": "The image plane mesh has the requested place and size", "statement": "The vertices of a plane built with a centre, size and divisions are evenly spaced over the size around the centre, and their texture coordinates run evenly over [0,1] with the first row at the top.", "quantifier": "all centres, sizes and numbers of divisions", "why_tests_cant": "floating-point error bounds over all sizes and divisions", "anchors": ["src/geom/plane.rs"]}
{"id": "C57", "title": "A colour operation table is that of the stream", "statement": "The lookup table returned for a stream holds, for every grid colour, what the stream's pending colour operations make of it, whatever the image cache held before.", "quantifier": "all lists of colour operations, sizes, channel counts and histories of the shared cache", "why_tests_cant": "depends on key collisions over all operation settings and on the history of the cache", "anchors": ["src/colorlutimage.rs::get_color_ops_lut", "src/colorop.rs::color_ops_hash", "src/colorop/colorgrade.rs"]}
{"id": "C58", "title": "A frame range can be executed in pieces", "statement": "Executing a list of frames gives the same nodes, output, cache, files and result as executing its first part and then, if that succeeds, the rest in a second call; a failing frame ends the range and nothing after it is computed.", "quantifier": "every graph, every way of splitting every list of frames, all node behaviours, caches and file systems", "why_tests_cant": "quantifies over all graphs, all ranges and all ways of splitting them", "anchors": ["src/graph.rs::GraphImpl::execute", "src/graph.rs::GraphImpl::execute_frame"]}
{"id": "C59", "title": "Chains of Null, Grade, Transform and Lens nodes are non-destructive", "statement": "Along a chain of such nodes the picture, its windows and its specification stay what the first node made; exactly the enabled nodes append their operation, in order, with the settings shown by their attributes; from a read node the picture is the file's, and no file changes.", "quantifier": "every chain of every length in every graph, all attribute values, files, frames and earlier states", "why_tests_cant": "induction over the length of the chain; all attribute values and all histories", "anchors": ["src/node/null.rs::compute", "src/node/grade.rs::compute", "src/node/transform.rs::compute", "src/node/lens_distort.rs::compute", "src/graph.rs::GraphImpl::execute", "src/stream.rs"]}
{"id": "C60", "title": "Rendering writes the processed source, frame by frame", "statement": "Executing a write node over a range of frames writes, for each frame in turn, exactly one file: the source's picture with all operations of the chain applied, at the expanded path, sRGB for JPEG and PNG names and linear otherwise, with the numeric type, crop and compression the attributes say, and tagged with the pixels' colour space and aspect.", "quantifier": "every chain, all frame ranges (including sources that the render overwrites), all attribute values and file systems", "why_tests_cant": "all ranges and chains; files written by earlier frames may be read by later ones", "anchors": ["src/node/write_image.rs::do_image_process", "src/node/write_image.rs::compute", "src/imageio.rs::write_image", "src/graph.rs::GraphImpl::execute"]}
{"id": "C61", "title": "Node statuses explain the result of an execution", "statement": "After executing at least one frame, the execution succeeded exactly when every node the executed node depends on reports 'valid' or 'warning'.", "quantifier": "every graph, node, frame list, cache and file system", "why_tests_cant": "all graph shapes and all points at which a node may fail", "anchors": ["src/graph.rs::GraphImpl::execute_frame", "src/node.rs::NodeImpl::compute", "src/graph.rs::GraphImpl::node_status"]}
{"id": "C62", "title": "Baking deformations that move nothing keeps the picture", "statement": "When the enabled deformations leave every pixel centre where it is (for example any number of Transform nodes with default settings), baking returns the same picture, for a float picture of three or four channels that fills its display window and starts at the origin.", "quantifier": "all pictures up to 2^22 pixels wide and high, all pixel values including NaN and infinities, all lists of deformations", "why_tests_cant": "the fetched pixel depends on rounding of two divisions and a product for every size and position; ties do occur", "anchors": ["src/deformutils.rs::apply_deformers_to_pixels", "src/ops/pixelremap.rs::pixels_remap_coords", "src/math/interp.rs::remap", "src/pixel.rs::get_pixel_rgba", "src/deformer/transform.rs"]}
{"id": "C63", "title": "Each pixel of a baked deformation is the source pixel its centre is taken back to", "statement": "Baking deformations into a float picture yields a picture of the size of the reported window in which every pixel is a source pixel: the one nearest (within the picture) to the place where the enabled deformers, run backwards, take the pixel's centre, with the display window stretched over the picture. It panics only if the new window is empty or has 2^31 values or more, or a deformer has an unknown direction.", "quantifier": "all pictures, windows, display windows, lists of deformers, numeric back ends and both build profiles", "why_tests_cant": "all window positions and sizes, all deformer lists, all values a lens plug-in may return (NaN, infinite, far outside)", "anchors": ["src/deformutils.rs::apply_deformers_to_pixels", "src/ops/pixelremap.rs::pixels_remap_coords", "src/pixel.rs::get_pixel_rgb", "src/pixel.rs::get_pixel_rgba"]}
{"id": "C64", "title": "A result depends only on what is upstream of the executed node", "statement": "Two graphs in which the executed node and everything connected upstream of it have the same types, ids, settings and connections give the same execution: the same output, files, cache and result, and also the same abort if there is one, however and in whatever order the graphs were made and whatever else they contain. In particular adding, removing, connecting, disconnecting or setting nodes elsewhere does not change it.", "quantifier": "every pair of session histories with distinct ids, every node, frame list, cache and file system; slots upstream have one source each", "why_tests_cant": "relates all pairs of histories leading to the same part; indices, edge order and free lists differ in unboundedly many ways", "anchors": ["src/graph.rs::GraphImpl::execute", "src/graph.rs::GraphImpl::connect", "src/graph.rs::GraphImpl::disconnect_input", "src/graph.rs::GraphImpl::remove_node", "src/graph.rs::GraphImpl::add_node"]}
{"id": "C65", "title": "Sensibly set graphs never abort the process", "statement": "Executing any node, any number of times, returns instead of aborting the process, whatever the number, kinds and connections of nodes, provided that: crops have a non-empty window within a common area and no black border, enumerated options have known values, lens distortion is off, files that exist decode to pictures of three or four channels within the area, and (in debug builds) the cache can hold the largest picture and resamplers have one input; and the part upstream is a tree or has levels. Without the condition on shape the process aborts exactly if the walk visits a node before one it feeds.", "quantifier": "every graph history, node, frame list, cache state and file system meeting the conditions, both build profiles, every external library with the stated guarantees, areas of any size below 2^31 values", "why_tests_cant": "panics depend on the conjunction of window arithmetic, cache accounting, channel counts and traversal order over unboundedly many graphs", "anchors": ["src/graph.rs::GraphImpl::execute", "src/node/crop_image.rs::compute", "src/node/merge_image.rs::compute", "src/node/viewer.rs::compute", "src/node/write_image.rs::compute", "src/ops/bake.rs::do_process", "src/cache.rs::CacheImpl::insert"]}
{"id": "C66", "title": "A merge node puts its first input on its second", "statement": "Executing an enabled merge node shows, pixel for pixel, the picture at its first slot put on the picture at its second slot in the selected mode (add, over, multiply) and mix, each first flattened: converted to linear, graded and deformed. Nothing stays pending on the result and it is tagged linear. With one input connected the other picture is the four by four colour bars of an empty stream.", "quantifier": "every graph, node, frame list, cache state, file system and numeric back end meeting the conditions of C65; merges set not to use the cache", "why_tests_cant": "relates the result to whatever arbitrary upstream graphs produced, for all pixels, windows, modes and mixes", "anchors": ["src/node/merge_image.rs::compute", "src/node/merge_image.rs::do_image_process", "src/ops/imagemerge.rs::merge", "src/ops/bake.rs::do_process", "src/graph.rs::GraphImpl::execute"]}
{"id": "C67", "title": "A crop node shows the flattened input within its window", "statement": "Executing an enabled crop node gives exactly the window that was set; inside it every pixel is that of the input, converted to linear, graded and deformed, and black transparent where the input has no pixels. The display window becomes the crop window if reformatting is on and stays that of the input otherwise. A crop to the picture's own window leaves what is finally written as it was (false: the converted pixels keep the old colour-space tag and are converted again).", "quantifier": "every graph, node, frame list, cache state, file system and numeric back end meeting the conditions of C65; crops set not to use the cache", "why_tests_cant": "relates the result to whatever arbitrary upstream graphs produced, for all windows and pixels; the double conversion needs a source tagged other than linear", "anchors": ["src/node/crop_image.rs::compute", "src/node/crop_image.rs::do_image_process", "src/ops/imagecrop.rs::crop_image_in_place", "src/ops/bake.rs::do_process", "src/graph.rs::GraphImpl::execute"]}
{"id": "C68", "title": "Executing a node with one input is executing its input and then the node", "statement": "For one frame, executing a node that has a single input, and is not a baking viewer, has the same outcome, output, node statuses, files and cache as executing that input and then computing the node on the resulting output. If executing the input fails, aborts or does not return, so does executing the node, and the node is not computed.", "quantifier": "every graph history, node with one input not on a cycle through it, frame, cache and file system, both build profiles", "why_tests_cant": "an equation between two executions of arbitrary graphs, with all intermediate states", "anchors": ["src/graph.rs::GraphImpl::execute", "src/graph.rs::GraphImpl::execute_frame", "src/graph.rs::GraphImpl::compute_node_output", "src/node.rs::NodeImpl::compute"]}
{"id": "C69", "title": "Switched-off nodes hand on their input", "statement": "Executing a node that is switched off or set to do nothing shows exactly what executing its input shows (picture, windows, specification, pending colour operations and deformations) and touches neither files nor cache. This holds for Null nodes, for crop, grade, transform, lens and resample nodes that are not enabled, for resamplers by factor 0 and grades of no channel, for writers (which also hand on what they write) and for executed viewers. It should hold for every node kind (false for merges and writers, which show colour bars, and for viewers elsewhere in a graph, which show the stream computed before).", "quantifier": "every graph history, node with one input, frame, cache and file system, both build profiles, all other settings of the node", "why_tests_cant": "relates the executions of two nodes of an arbitrary graph; what a switched-off viewer shows depends on the order of evaluation of the whole graph", "anchors": ["src/node/null.rs::compute", "src/node/crop_image.rs::compute", "src/node/grade.rs::compute", "src/node/transform.rs::compute", "src/node/lens_distort.rs::compute", "src/node/resample_image.rs::compute", "src/node/write_image.rs::compute", "src/node/viewer.rs::compute", "src/node/merge_image.rs::compute"]}
{"id": "C70", "title": "Different names give different node ids", "statement": "Ids made from different names differ, so that nodes added under them are different nodes. (True of names of one length up to eight bytes; false in general: names of different lengths, or longer than eight bytes, can share an id, and the second node added under it is not added.)", "quantifier": "all pairs of names", "why_tests_cant": "2^64 short names; collisions are too rare for random tests to meet", "anchors": ["src/hashutils.rs::generate_id_from_name", "src/hashutils.rs::calculate_hash", "src/cxxbridge.rs::generate_id_from_name"]}
{"id": "C71", "title": "An exported mesh is read back as it was", "statement": "Exporting a mesh writes an OBJ file from which a reader gets the same vertices, texture coordinates and triangles; numbers left over after the last complete vertex, coordinate or triangle are dropped. It does not abort if the file can be written and all indexes are below 2^32 - 1; the triangles of image planes are such.", "quantifier": "all buffers of any length, both build profiles, every way of printing floats in one word that can be read back, every file system", "why_tests_cant": "buffers are unbounded; the text format is a separate language that only a reader gives meaning to", "anchors": ["src/geom.rs::export_mesh", "src/cxxbridge.rs::export_mesh", "src/geom/plane.rs::fill_buffer_index_tris"]}
{"id": "C72", "title": "Laws of merging", "statement": "Swapping the inputs of an \"add\" or \"multiply\" merge at mix 1 gives the same picture; a mix of zero leaves the first input; a fully transparent first input leaves the second (\"add\", \"over\"); a fully transparent black second input leaves the first, whatever the mix.", "quantifier": "for all pairs of float pictures with matching channel counts, any windows, all finite pixel values", "why_tests_cant": "algebraic laws over all pictures and placements; tests check a few pictures", "anchors": ["src/ops/imagemerge.rs::merge", "src/node/merge_image.rs::compute"]}
{"id": "C73", "title": "A newly added node changes nothing until it is set", "statement": "Inserting a node with its default settings after a node that runs leaves what is shown unchanged: the run still succeeds, has the same side effects, and the picture is the same.", "quantifier": "for all graphs, input nodes, frames and worlds, for each node type", "why_tests_cant": "quantifies over every graph and input; tests create nodes in a few fixed graphs", "anchors": ["src/node/null.rs::compute", "src/node/grade.rs::compute", "src/node/resample_image.rs::compute", "src/node/viewer.rs::compute", "src/node/crop_image.rs::compute", "src/ops/colorgrade.rs::grade_single"]}
{"id": "C74", "title": "The clamp and premultiply settings of a grade take effect", "statement": "With clamp_black on no graded value is below zero, with clamp_white on none is above one; changing clamp_black, clamp_white or premult can change the picture.", "quantifier": "for all grade settings, input pictures and values of the settings", "why_tests_cant": "that a setting never matters is a statement about all inputs", "anchors": ["src/ops/colorgrade.rs::grade_single", "src/colorop/colorgrade.rs::apply_slice_in_place", "src/node/grade.rs::compute"]}
{"id": "C75", "title": "A reversed grade undoes the grade", "statement": "A grade followed by a grade with the same settings and \"reverse\" on gives back the original values, up to rounding.", "quantifier": "for all grade settings and all buffers of finite values", "why_tests_cant": "an error bound over all settings and values; tests sample a handful", "anchors": ["src/ops/colorgrade.rs::grade_single", "src/ops/colorgrade.rs::grade", "src/ops/colorgrade.rs::apply_color_grade_inplace", "src/coloroputils.rs"]}
{"id": "C76", "title": "A picture written to a file and read back is the same picture", "statement": "Writing a picture and reading the file gives the same pixels, windows and metadata if the display window starts at the origin and the format is 32 bit float or has four channels; cropped writes give the part inside the display window, black where there was nothing. A picture rendered by a write node and read by a read node looks the same.", "quantifier": "for all pictures, sizes, channel counts, both build profiles, and every image library that keeps the files it stores", "why_tests_cant": "quantifies over pictures and windows and over the behaviour of the image library", "anchors": ["src/imageio.cpp::oiio_read_image", "src/imageio.cpp::oiio_write_image", "src/oiio_utils.cpp::oiio_allocate_image", "src/imageio.rs::write_image"]}
{"id": "C77", "title": "A read node shows the file", "statement": "A read node shows the pixels of the file its path names, opaque where alpha has to be added, at the place the file says; a file it cannot show gives a warning or an error and nothing else.", "quantifier": "for all files of any size, channel count, pixel format and windows", "why_tests_cant": "files can have any number of channels and any windows; tests use a few sample images", "anchors": ["src/imageio.cpp::oiio_read_image", "src/oiio_utils.cpp::oiio_allocate_image", "src/pixelblock/utils.rs::stride_num_channels", "src/node/read_image.rs::compute"]}
{"id": "C78", "title": "Resampling scales the picture by powers of two", "statement": "An enabled resample node gives a picture of the input's size times two to the factor, rounded down and kept between 1 and 16384, with the same channels and format, made of the library's resampling of the input's pixels; the picture keeps its place in the frame.", "quantifier": "for all pictures, factors and resampling algorithms that make the size asked for", "why_tests_cant": "quantifies over sizes, factors and formats", "anchors": ["src/ops/imageresample.cpp::oiio_image_resample", "src/oiio_utils.cpp::oiio_allocate_image", "src/node/resample_image.rs::compute"]}
{"id": "C79", "title": "Compression settings reach the file", "statement": "The OpenEXR method and level, the PNG level and the JPEG quality, subsampling and progressive settings of a write node are asked of the image library for files with the respective ending in any case.", "quantifier": "for all paths, all settings and all pictures", "why_tests_cant": "all combinations of endings (in any case) and settings", "anchors": ["src/imageio.cpp::oiio_write_image", "src/node/write_image.rs::compute"]}
{"id": "C80", "title": "The configuration file is found where it should be", "statement": "A configuration asked for by name is the content of that file in the first directory of OPENCOMPGRAPH_CONFIG_PATH that has it, and the built-in defaults when none has; an absolute name is used as it is; a broken file does not end the process.", "quantifier": "for all values of the variable, all file names and all file systems", "why_tests_cant": "all lists of directories, with empty entries, trailing separators and absolute names", "anchors": ["src/config.rs::get_config", "src/config.rs::get_config_path", "src/config.rs::load_config"]}
{"id": "C81", "title": "Lens parameters stay with the picture", "statement": "The distortion, squeeze, curvature and centre attributes of a lens distortion node are what the lens model is set up with; however often the picture's deformers are copied and used, every copy answers as the lens model set up with these parameters, and copying never ends the process.", "quantifier": "for all attribute values, all histories of copying and using and all lens models whose answers do not change by asking", "why_tests_cant": "all interleavings of copies and uses; the plug-in is stateful and a copy starts with a new one", "anchors": ["src/deformer/tde4_classic.rs::commit_data", "src/deformer/ldpk_utils.rs::LensDistortionPlugin", "src/deformer.rs::clone", "src/node/lens_distort.rs::compute"]}
{"id": "C82", "title": "A grade follows its formula", "statement": "An enabled grade that is not reversed turns a value x into the blend, by the mix, of x and the line multiply*(gain-lift)/(white-black)*(x-black)+offset+lift raised to one over gamma, up to rounding; numbers stay numbers.", "quantifier": "for all grade settings of modest size whose white and black point differ, all mixes from zero to one, all buffers of whole pixels with one, three or four channels and modest values", "why_tests_cant": "the settings and values are floats; the error of nine rounded operations has to be bounded for all of them", "anchors": ["src/ops/colorgrade.rs::grade_single", "src/ops/colorgrade.rs::grade", "src/ops/colorgrade.rs::apply_color_grade_inplace", "src/coloroputils.rs::apply_color_ops_to_pixels"]}
{"id": "C83", "title": "Thread setting of the image library", "statement": "Images are read and written with the number of threads the configuration asks for, and afterwards the image library's own thread setting is what it was before.", "quantifier": "for all configurations, all sequences of reads and writes and all image libraries with a global thread setting that reading and writing leave alone", "why_tests_cant": "a global setting in a library is changed and restored around every call; the claim is about every sequence of calls and every earlier setting", "anchors": ["src/imageio.rs::read_image", "src/imageio.rs::write_image", "src/imageio.cpp::oiio_set_thread_count", "src/node/read_image.rs::compute", "src/node/write_image.rs::compute", "src/config.rs::ConfigThreading"]}
{"id": "C84", "title": "Merging is accurate and may be regrouped", "statement": "Every value of a merged picture is the exact sum, over or product of the values of its inputs up to a few units of rounding of its terms; merging three RGBA pictures in the same way gives the same window and, up to rounding, the same values whichever two are merged first.", "quantifier": "for all float pictures of numbers below a million with windows that fit, all three ways of merging and all mixes from zero to one (grouping: RGBA, mix one)", "why_tests_cant": "claims about all pixel values and window positions; the error of the rounded operations has to be bounded for all of them", "anchors": ["src/ops/imagemerge.rs::merge", "src/ops/imagemerge.rs::get_pixel_rgba", "src/node/merge_image.rs::compute"]}
{"id": "C85", "title": "Frames are read and written under their number", "statement": "A whole frame is read and written under exactly its number, so a range of whole frames makes one file per frame named by its number; a fractional frame is used under the nearest whole number, halves away from zero. (Frames that round to the same number share a file.)", "quantifier": "for all frames that are numbers, all path patterns with one to nine padding characters, all chains of nodes between the reader and the writer and all lists of whole frames of 32 bits", "why_tests_cant": "all doubles, with ties and the limits of the integer conversion; ranges of any length", "anchors": ["src/graph.cpp::Graph::execute", "src/node/read_image.rs::compute", "src/node/write_image.rs::do_image_process", "src/pathutils.rs::expand_string"]}
{"id": "C86", "title": "A Transform takes points where its settings say", "statement": "A Transform scales and turns a point about the pivot and then moves it by the translation, given in pixels and applied as part of the picture's width: the computed position is within seven units of rounding of that formula, for single points and for every vertex of the mesh. Baking into pixels moves the picture by the translation in pixels. (The last sentence is false: the part of the width is used as a number of pixels, so a translation by up to half of the width moves no pixel by more than one.)", "quantifier": "for all translations, scales, turns, pivots and windows below a million, all points and meshes; for the bake, all translations up to half of the width, all pictures up to 65536 on a side", "why_tests_cant": "all single-precision settings and positions; a test sees few positions and has no error bound to compare against", "anchors": ["src/deformer/transform.rs::_apply", "src/math/xform.rs::create_transform_2d", "src/deformutils.rs::apply_deformers_to_positions", "src/deformutils.rs::apply_deformers_to_pixels"]}
{"id": "C87", "title": "What a file says about its pixels stays with the picture", "statement": "Gamma, pixel aspect ratio, orientation, alpha association and dithering of a file that is read are those of the picture, nodes in a row hand them on unchanged, and merging and writing keep them. (Merging and writing forget all of them; and the orientation is misread: files count orientations from one, the library from zero, so an ordinary upright file is taken for a mirrored one, and written files carry an orientation number that means nothing.)", "quantifier": "for all files that can be read, all orientations, all rows of nodes with any attributes, inputs, frames and caches", "why_tests_cant": "all files, all graphs and all node settings; the tests read one file and look at no metadata", "anchors": ["src/imageio.cpp::oiio_read_image", "src/imageio.cpp::oiio_write_image", "src/cxxbridge.rs::ImageOrientation", "src/imagespec.rs::ImageSpec", "src/node/merge_image.rs::MergeImageOperation"]}
{"id": "C88", "title": "A file that cannot be read to the end is not taken for a picture", "statement": "When the image library opens a file but cannot decode all of its pixels (a file cut off by a full disk or still being written), the read node says so, and reading the file again after it is complete shows it. (The status is valid, the pixels that could not be decoded are shown white and opaque, and with the cache on the half picture stays after the file is complete.)", "quantifier": "for all files the library can open, all sets of pixels that can be decoded, all read nodes, frames and caches", "why_tests_cant": "all damaged files; no test reads one", "anchors": ["src/imageio.cpp::oiio_read_image", "src/imageio.rs::read_image", "src/node/read_image.rs::ReadImageOperation"]}
{"id": "C89", "title": "A node with nothing to show shows colour bars and says so", "statement": "Executing a node that has nothing to show (nothing is connected to it, it is a reader that is off or finds no picture at its path) succeeds, shows the colour bars whatever was shown before, touches no file and no cached picture, and leaves the node with a warning. (True for the most part; viewers and writers that are off show the bars without a warning, and a reader of a folder shows what was computed last, without a warning.)", "quantifier": "for all graphs, nodes of all types and settings, frames, file systems, caches and previous outputs", "why_tests_cant": "all graphs and settings; the tests execute connected graphs", "anchors": ["src/data.rs::COLOR_BARS", "src/stream.rs::StreamDataImpl::new", "src/node/crop_image.rs::compute", "src/node/grade.rs::compute", "src/node/lens_distort.rs::compute", "src/node/merge_image.rs::compute", "src/node/null.rs::compute", "src/node/read_image.rs::compute", "src/node/resample_image.rs::compute", "src/node/transform.rs::compute", "src/node/viewer.rs::compute", "src/node/write_image.rs::compute", "src/graph.rs::GraphImpl::execute"]}
{"id": "C90", "title": "Streams and nodes tell what became of them", "statement": "The stream a graph hands out says that it is valid once an execution has succeeded; a node says uninitialized until an execution needs it and then error, valid or warning. (The first part is false: no stream ever says that it is valid.)", "quantifier": "for all sequences of calls on a graph, all nodes and all outside worlds", "why_tests_cant": "all sequences of calls; the tests read statuses after single executions and never the state of a stream", "anchors": ["src/stream.rs::StreamDataImpl::state", "src/cxxbridge.rs::StreamDataState", "src/node.rs::NodeImpl::compute", "src/graph.rs::GraphImpl::node_status"]}
{"id": "C91", "title": "An inverted Transform undoes the Transform", "statement": "A Transform followed by an inverted Transform with the same settings leaves every mesh vertex where it was, up to a stated rounding error, and the source a bake looks up for the place a point went to is that point. (False when the transform has no inverse, as with a scale of zero: the inverted transform is then the transform itself.)", "quantifier": "for all settings, windows, meshes and points, given how far off the numeric library's inverse may be", "why_tests_cant": "all single-precision settings and positions; a test sees few positions and has no error bound to compare against", "anchors": ["src/deformer/transform.rs::_apply", "src/math/xform.rs::create_transform_2d", "src/deformutils.rs::apply_deformers_to_positions"]}
{"id": "C92", "title": "Pictures read and written with the Rust image library", "statement": "A picture the Rust image library opens becomes a float image of the same size on a window at the origin whose values are the light its 8-bit samples stand for in sRGB; written back, it holds the samples it had. Data whose length is not that of the block is never taken. (False in part: other kinds of colours and unopened files end the program, alpha is converted as if it were a colour, and samples are rounded down when written, so white comes back as 254.)", "quantifier": "for all pictures, sizes and samples, all power functions of the maths library, and both build profiles", "why_tests_cant": "all sizes, all 256 levels and every single-precision value; tests look at one file and cannot range over the behaviour of the approximate power function", "anchors": ["src/pixelblock/dynimage.rs::from_dynamic_image", "src/imagebuffer.rs::create_image_buffer_rgb_u8", "src/imagebuffer.rs::create_image_buffer_rgba_u8", "src/colorutils.rs::convert_srgb_to_linear", "src/colorutils.rs::convert_linear_to_srgb", "src/imageio.rs::read_image", "src/imageio.rs::write_image", "src/pixelblock/pixelblock.rs::from_datablock"]}
{"id": "C93", "title": "Baking deformers cuts nothing off", "statement": "When deformers are baked into pixels, every point of the picture is carried to a point inside the window of the result. (True of lens deformers, for which the window grows; false of transforms, whose result keeps the window of the source.)", "quantifier": "for all lists of lens deformers in either direction, display windows up to 131072 pixels wide, source windows up to eight displays away, and all float positions in the source; for all plug-ins whose bounding boxes hold their points up to a pixel", "why_tests_cant": "ranges over all float positions, all windows and all lists of lenses, with single-precision rounding at each step; tests cannot range over plug-in behaviours", "anchors": ["src/deformer/tde4_classic.rs::apply_bounding_box", "src/deformer.rs::apply_bounding_box", "src/deformutils.rs::apply_deformers_to_pixels", "src/math/interp.rs::remap"]}
{"id": "C94", "title": "Opposite lenses undo each other", "statement": "A lens node followed by a lens node with the same parameters and the opposite direction leaves every point where it was, up to the lens library's own error and a stated rounding error; and baking a lens looks for each point where the viewer's mesh shows it, up to the same error.", "quantifier": "for all displays with edges up to 65536 pixels from the origin, all float positions up to six displays away, all parameters, and all plug-ins whose two directions undo each other up to a given error and stretch distances at most k times", "why_tests_cant": "ranges over all float positions and displays with single-precision rounding at each of eight steps, and over all behaviours of the external lens library", "anchors": ["src/deformer/tde4_classic.rs::apply_slice_in_place", "src/deformer/tde4_classic.rs::commit_data", "src/node/lens_distort.rs", "src/math/interp.rs::remap"]}
{"id": "C95", "title": "The radial lens deformer follows its documented formula", "statement": "The Brownian lens deformer moves points by xu = xd + (xd - xc) * (k1 * r^2 + k2 * r^4), its inverse takes them back, and the result does not depend on the resolution. (All three are false of the code; with both coefficients zero points stay where they are.)", "quantifier": "for all displays with edges up to 65536 pixels from the origin, all float positions up to six displays away, centres up to 2^20, either direction", "why_tests_cant": "all float positions and displays, with single-precision rounding; no node makes this deformer and no test covers it", "anchors": ["src/deformer/brownian.rs::_apply", "src/deformer/brownian.rs::apply_slice_in_place"]}
{"id": "C96", "title": "A colour matrix multiplies every pixel", "statement": "Baking a stream with a pending colour matrix replaces every pixel by the matrix times the pixel, with an error of at most a four-millionth of the size of the terms; RGB pictures count as opaque, one-channel pictures as the alpha of white. Scaling the colours of a matrix scales the colours it produces; of the identity matrix, exactly as multiplying the floats does.", "quantifier": "for all RGBA, RGB and one-channel float pictures of any size, all matrices and scale factors, with finite numbers up to 2^20 (infinite factors refuted)", "why_tests_cant": "all float matrices and pixels with the rounding of every step; no test applies a matrix other than the identity", "anchors": ["src/ops/xformcolor.rs::apply_color_matrix_inplace", "src/ops/bake.rs::do_process_colorgrade", "src/math/colorxform.rs::apply_scale_rgba"]}
{"id": "C97", "title": "Changing the number format keeps the values as well as the format can", "statement": "Float pictures become 8 or 16 bit ones by keeping each value to the range from zero to one (NaN counts as zero) and taking a level less than one below it (hardly ever above), so that brighter values never become darker ones. Levels become floats within 2^-24; floats become the nearest half float, infinite from 65520 on, and half floats keep their value exactly; 16 bits become 8 by an exact division by 257. Every other conversion is the one by way of floats. (The level taken is not the nearest one: values are cut off.)", "quantifier": "for all buffers of any length of all floats (infinities and NaN included), halves and levels", "why_tests_cant": "2^32 floats per conversion, all orderings of pairs; no test converts between formats at all", "anchors": ["src/pixelblock/utils.rs::convert_datablock_enum_to_u8", "src/pixelblock/utils.rs::convert_datablock_enum_to_u16", "src/pixelblock/utils.rs::convert_datablock_enum_to_f16", "src/pixelblock/utils.rs::convert_datablock_enum_to_f32", "src/pixelblock/datablock.rs::convert_into_data_type"]}
{"id": "C98", "title": "A release build computes what a debug build computes", "statement": "Whatever a program does with graphs of any nodes, lookup tables, the image cache and files: if every call comes to an end in a debug build (overflow checked, debug assertions on), then every call comes to an end in a release build, with the same streams, statuses, cache contents, files and answers. The same holds of the image operations, meshes and file functions on their own. (Not the other way round: release builds go on where debug builds crash, for instance with a picture larger than the cache.)", "quantifier": "for all sequences of calls of any length on any number of graphs sharing a cache, all node types and attribute values, all cache capacities, all file systems and external libraries", "why_tests_cant": "tests run in one build profile at a time, and cannot range over all sessions and values at which arithmetic might overflow", "anchors": ["Cargo.toml::profile.release", "src/graph.rs::execute", "src/cache.rs::CacheImpl", "src/pixelblock/pixelblock.rs::from_pixel_block", "src/ops/imagemerge.rs::merge", "src/deformutils.rs::apply_deformers_to_pixels", "src/colorlutimage.rs::get_color_ops_lut", "src/geom/plane.rs::fill_buffer_vertex_positions"]}
{"id": "C99", "title": "Walking a picture row by row shows every sample once; boxes have the right numbers", "statement": "Iterating over the rows of a float picture ends after as many rows as the picture is high and shows every sample once, in order, in debug and release builds. A row, of a picture or of a box, says that it exists exactly if it does. The width, height, area and centre of a box are those of arithmetic as long as they (and for the centre the sums of the corners) fit in 32 bits; beyond that debug builds crash and release builds answer with other numbers.", "quantifier": "for all float pictures whose number of samples is a 32-bit integer, all rows, all boxes", "why_tests_cant": "unbounded picture and box sizes; the wrong answers need rows beyond a non-square box or corners near the ends of the number range", "anchors": ["src/pixelblock/pixelblock/row.rs::RowsFloat32Iterator", "src/pixelblock/pixelblock/row.rs::RowFloat32::as_slice", "src/pixelblock/pixelblock/row.rs::RowFloat32::has_next", "src/bbox/bbox2di/row.rs::BBox2DRow::has_next", "src/bbox/bbox2di.rs::BBox2Di::area", "src/bbox/bbox2di.rs::BBox2Di::center"]}
{"id": "C100", "title": "Explicit evictions remove what was used longest ago, and nothing that fits is lost", "statement": "Evicting once removes the image used longest ago and answers whether there was one; evicting everything leaves nothing; evicting a number of bytes removes images, those used longest ago first, until that many bytes have gone or none is left, and none beyond that. None of these calls ever crashes. As long as everything inserted fits in the capacity and nothing is evicted by hand, every lookup answers with the image last inserted under its key. The hits counted are the lookups answered with an image.", "quantifier": "for all histories of calls, keys, image sizes and capacities, in debug and release builds", "why_tests_cant": "unbounded histories; the extra eviction needs sizes that add up exactly", "anchors": ["src/cache.rs::CacheImpl::evict", "src/cache.rs::CacheImpl::evict_all", "src/cache.rs::CacheImpl::evict_bytes", "src/cache.rs::CacheImpl::get"]}
{"id": "C101", "title": "Disconnecting an input empties it; a node used through one input shows the last source plugged in", "statement": "After disconnecting an input of a node no node feeds that input; every other connection, every node and the graph's output are as before, and the graph asks to be executed exactly when something was disconnected. A node that is only ever connected through one of its inputs is fed by exactly the node last connected to it, or by none if it was disconnected, or either end removed, since.", "quantifier": "for all histories of adding, removing, connecting, disconnecting, editing and executing, all ids and inputs", "why_tests_cant": "unbounded histories; which connections go depends on the order in which they were made", "anchors": ["src/graph.rs::GraphImpl::disconnect_input", "src/graph.rs::GraphImpl::connect", "src/graph.rs::GraphImpl::remove_node"]}
{"id": "C102", "title": "What has been computed is kept and not computed again", "statement": "A read, crop, merge, resample or baking viewer node that is told to use the cache puts its picture there, and with its picture there shows it without reading its file or using its inputs' pixels. A node told not to use the cache leaves it alone. Executing a graph again, unchanged, after an execution that succeeded and evicted nothing finds every picture in the cache: no lookup misses and nothing is inserted. What a node's picture is kept under depends only on its type, its inputs, the file it names and the attributes that can change the picture; in particular not on its id or on the frame.", "quantifier": "for all graphs, attributes, frames, cache contents and files, in debug and release builds", "why_tests_cant": "relates two executions of arbitrary graphs; a cache that never hits passes every test of results", "anchors": ["src/node/read_image.rs::compute", "src/node/crop_image.rs::compute", "src/node/merge_image.rs::compute", "src/node/resample_image.rs::compute", "src/node/viewer.rs::compute", "src/node/traits.rs::cache_hash", "src/cache.rs::CacheImpl::get", "src/graph.rs::GraphImpl::execute"]}
{"id": "C103", "title": "Each bake option applies its part and leaves the rest pending", "statement": "Baking nothing changes nothing. Baking the colour space converts the pixels to the target space and to the number type asked for, names the picture accordingly, and leaves the window, colour matrix, colour operations and deformers as they are; if the colour library fails, colours and name stay. Baking colour space and grade also applies the matrix and the operations, in Linear, and leaves the window and the deformers. Baking everything does the same and applies the deformers; doing it in two stages gives the same linear picture. A viewer passes on what its option bakes of its input.", "quantifier": "for all pictures, streams, colour spaces, number types and colour libraries, in debug and release builds", "why_tests_cant": "the pixels depend on arbitrary lists of operations and on the colour library; what an option must leave alone is rarely looked at", "anchors": ["src/ops/bake.rs::do_process", "src/ops/bake.rs::do_process_colorspace", "src/ops/bake.rs::do_process_stream_colorgrade", "src/node/viewer.rs::do_viewer_bake", "src/node/viewer.rs::compute"]}
{"id": "C104", "title": "Executing a graph shows the composition its nodes describe", "statement": "Give every node its meaning: a reader shows the file its path names at the frame, grades and transforms add their operation to what the first input shows, a merge shows the first input flattened on the second, a crop the flattened input within its window, a resampler the resampled picture, a writer its input, a viewer its input with the colours baked that it is told to bake, and nodes that are switched off or unconnected an empty picture or their input. A successful execution shows the composition of these meanings along the connections, of the files as they were when it began: whatever the cache holds, whatever was executed before, in whatever order nodes are computed and however often a node is used. The composition is determined by the graph. This needs nodes to have no more inputs than they use: otherwise a node can show another picture in place of its input's.", "quantifier": "for all graphs of any size and shape with sensible settings in which no node has more inputs than it uses and viewers bake at most the colours, all attribute values, frames, files and sessions over several graphs sharing a cache of any capacity, in debug and release builds", "why_tests_cant": "a graph has unboundedly many nodes and shapes; an execution computes shared nodes several times, in an order no test controls, and takes some pictures from the cache", "anchors": ["src/graph.rs::execute", "src/graph.rs::execute_frame", "src/node/read_image.rs::compute", "src/node/merge_image.rs::compute", "src/node/crop_image.rs::compute", "src/node/grade.rs::compute", "src/node/transform.rs::compute", "src/node/resample_image.rs::compute", "src/node/viewer.rs::compute", "src/node/viewer.rs::validate_inputs"]}
{"id": "C105", "title": "Graphs that describe the same composition show the same", "statement": "If the nodes of two graphs can be paired so that paired nodes have the same type and attributes and, slot by slot, paired inputs, and readers name files of the same contents, then executing paired nodes shows the same pixels, windows, metadata and pending operations. Null nodes, switched-off nodes, writers and viewers that bake nothing may be put in or taken out anywhere. So node ids, the order of building, whether a node is shared or duplicated, other nodes of the graph, the frame (if the files are the same), what was executed before and what the cache holds make no difference.", "quantifier": "for all pairs of graphs of any size and shape and all pairings of their nodes, including one to many, in any two sessions with caches of any capacity and content, all frames and files, in debug and release builds; graphs as in C104", "why_tests_cant": "there are unboundedly many pairs of graphs and ways of getting to them; unit tests compare fixed graphs", "anchors": ["src/graph.rs::execute", "src/graph.rs::execute_frame", "src/graph.rs::add_node", "src/graph.rs::connect", "src/node/null.rs::compute", "src/node/write_image.rs::compute", "src/cache.rs::insert"]}
{"id": "C106", "title": "Rendering a graph writes the composition its nodes describe", "statement": "Executing an image writer for a range of frames writes, frame by frame and in order, the composition that the nodes before it describe at that frame, baked, with the number format, colour space, crop and compression the writer asks for; for whole frames it goes to the file numbered after the frame. Rendering two graphs that describe the same composition, from the same files, leaves the same files, whatever was executed or cached before in either.", "quantifier": "for all graphs of any size and shape that end in a writer and have no other active writer before it, all ranges of frames, all sessions with caches of any capacity and content, all files, in debug and release builds; nodes as in C104, reading files the writer does not write to", "why_tests_cant": "there are unboundedly many graphs, ranges and histories; unit tests render a fixed graph for a fixed range", "anchors": ["src/graph.rs::execute", "src/graph.rs::execute_frame", "src/node/write_image.rs::compute", "src/node/read_image.rs::compute", "src/ops/bake.rs::do_process", "src/cache.rs::insert", "src/pathutils.rs::expand_string"]}
{"id": "C107", "title": "Every writer in a graph writes its file for each frame", "statement": "Executing any node of a graph for a range of frames writes, frame by frame, the composition before each active image writer the node depends on, at that frame and with everything applied, one or more times each, and writes nothing else. When no two of these files share a path, and the file system keeps what is written, each of them is there at the end with the composition before its writer.", "quantifier": "for all graphs of any size and shape with any number of writers anywhere, all ranges of frames, all sessions with caches of any capacity and content, all files, in debug and release builds; nodes as in C104, reading files that no writer writes to", "why_tests_cant": "there are unboundedly many graphs, ranges and histories; a unit test renders one graph, usually with one writer at its end", "anchors": ["src/graph.rs::execute", "src/graph.rs::execute_frame", "src/node/write_image.rs::compute", "src/node/read_image.rs::compute", "src/ops/bake.rs::do_process", "src/pathutils.rs::expand_string"]}
{"id": "C108", "title": "What graphs show and files hold, number by number", "statement": "Baking everything into a picture gives: its numbers as floats, converted to the linear space, through the pending colour matrix and the pending colour operations in order, moved by the enabled deformers (each pixel the one its centre is taken back to), converted to the target space, and stored as the nearest half, the level below, or the float itself. Merges, crops, viewers and image writers of any graph use the picture their input shows in exactly this form; a written file is set into the display window, black where the picture has no pixels, if it is to be cropped. For linear pictures with four channels each single pixel of the result is the colour formula applied to one pixel of the source.", "quantifier": "for all pictures of one, three or four channels and any type of number, all pending operations and deformers, all colour spaces and conversions; for all graphs and sessions of C104 and C107; in debug and release builds", "why_tests_cant": "there are unboundedly many pictures and graphs; a unit test compares one rendered picture with a stored one, and cannot say what the numbers of other pictures should be", "anchors": ["src/ops/bake.rs::do_process", "src/ops/bake.rs::do_process_colorspace", "src/ops/bake.rs::do_process_stream_colorgrade", "src/deformutils.rs", "src/pixelblock.rs::PixelBlock", "src/node/write_image.rs::compute", "src/node/merge_image.rs::compute", "src/node/crop_image.rs::compute", "src/node/viewer.rs::compute"]}
{"id": "C109", "title": "What a graph shows does not depend on what it showed before", "statement": "Executing a graph is determined by its nodes' types and settings, its connections, the cache and the files: executing an unchanged graph again, with cache and files as they were, shows the same picture, leaves the same cache and files, and ends with the same status; and what is shown follows from the files.", "quantifier": "for all graphs, all previously shown pictures and node statuses, all lists of frames, all caches and files, both build profiles, successful and failing executions", "why_tests_cant": "a test executes a few graphs once or twice; it cannot show that the result is independent of every earlier output, and a graph that feeds its own output back may happen to show the same picture twice", "anchors": ["src/graph.rs::Graph::execute", "src/graph.rs::Graph::output_stream", "src/node/read_image.rs::compute", "src/node/viewer.rs::compute", "src/node/viewer.rs::validate_inputs"]}
{"id": "C110", "title": "A tidy graph of working nodes always succeeds and shows its composition", "statement": "Executing a node of a graph whose nodes are sensibly set and whose part before that node is a tree or has levels ends in success, whatever the cache holds and whatever was executed before, provided resampling works; the picture shown is the composition the nodes describe, which exists for every such graph. Nothing but resampling can make an execution that returns fail.", "quantifier": "for all graphs built by the interface with sensible settings, all starting nodes, all lists of frames, all fine files, all caches, both build profiles", "why_tests_cant": "tests execute a few graphs and see a few successes; that no other sequence of calls, files or cache contents makes an execution fail cannot be tested", "anchors": ["src/graph.rs::Graph::execute", "src/graph.rs::Graph::execute_frame", "src/node/resample_image.rs::compute", "src/node/traits.rs::Operation::compute"]}
{"id": "C111", "title": "A graph is what its attributes read and how it is connected; edits can be undone", "statement": "What executing a node does depends on what the attributes of the nodes before it read and on how these are connected, not on how they came to be so: only the last value written to an attribute counts, the order of writes to different attributes does not, writing the old value back and unplugging a newly connected input restore the graph, and asking to be executed changes nothing about the execution. At any two moments at which the readings, the connections and the files are the same the same picture is shown, whatever was executed and cached in between.", "quantifier": "for all histories of calls, all nodes, attributes, values and sessions, both build profiles", "why_tests_cant": "tests compare a few ways to build one graph; that no history of edits leaves a trace in the result cannot be tested", "anchors": ["src/graph.rs::Graph::set_node_attr_i32", "src/graph.rs::Graph::connect", "src/graph.rs::Graph::disconnect_input", "src/attrblock.rs::AttrBlock", "src/graph.rs::Graph::execute"]}
{"id": "C112", "title": "The cache report tells the truth about the cache", "statement": "The text a cache gives about itself states its capacity and use in gigabytes exactly, counts every lookup, insert and eviction, and gives the percentage of lookups that were answered and of inserted images that stayed.", "quantifier": "for all histories of cache operations and all sizes below 2^53 bytes", "why_tests_cant": "the report is only read by people; no test compares its figures with what happened, and rounding has to be considered for all counts", "anchors": ["src/cache.rs::CacheImpl::data_debug_string", "src/data.rs::BYTES_TO_GIGABYTES"]}
{"id": "C113", "title": "A node handle is the node it says it is", "statement": "Whatever a client does through the C++ classes, with several graphs and caches: a handle got from create_node under a name or id not used in that graph before exists in it for ever, has the attributes of the type it names, and each of them reads as it was last set through any handle of that id (or as a new node has it). Handles of nodes not created in a graph change nothing there and get the answers for a missing node. A cache lent to an execution is given back.", "quantifier": "for all finite sequences of C++ calls on any number of graphs and caches, all names and ids", "why_tests_cant": "quantifies over all call sequences and over the interplay of graphs whose nodes share names", "anchors": ["src/graph.cpp::Graph::create_node", "src/graph.cpp::Graph::execute", "src/node.cpp::Node", "src/cache.cpp::Cache::get_box", "src/cache.cpp::Cache::set_box"]}
{"id": "C114", "title": "Graphs and caches report what happened to them and keep out of each other's way", "statement": "Whatever a client does through the C++ classes: a cache reports the capacity last given to it, and the number and total bytes of the pictures it holds, which are those most recently used and fit its capacity if none was larger; it was touched only by capacities and by the executions and table calls it was lent to. A graph reports the answer of its last execution, Uninitialized exactly until a node is created in it, and Clean only if nothing was edited since a successful execution. Asking changes nothing; calls on one graph or cache never change what another answers; an output stream is replaced by executions of its graph only.", "quantifier": "for all finite sequences of C++ calls on any number of graphs and caches, all externals and disks", "why_tests_cant": "quantifies over all call sequences and over the interplay of several graphs and caches", "anchors": ["src/graph.cpp::Graph::state", "src/graph.cpp::Graph::execute_status", "src/graph.cpp::Graph::output_stream", "src/graph.cpp::Graph::execute", "src/cache.cpp::Cache::count", "src/cache.cpp::Cache::used_bytes", "src/cache.cpp::Cache::capacity_bytes", "src/cache.cpp::Cache::set_capacity_bytes"]}
{"id": "C115", "title": "The lookup tables a C++ client gets are the ones for its arguments", "statement": "Whatever graphs a client builds and executes through its caches and whatever tables it asked for before (for colour space conversions or for the colour operations of a stream): each table it is given equals the one made from scratch for the arguments, so asking twice gives the same answer, and the table from a colour space to itself is a regular grid over the colours. Needed: distinct byte strings are hashed to distinct numbers, source colour space names hold no colon, and the channels a table holds are all processed or none.", "quantifier": "for all finite sequences of C++ calls on any number of graphs and caches, all externals and disks, all table sizes and names", "why_tests_cant": "quantifies over everything that can have been stored in the cache before, under any key", "anchors": ["src/colorlutimage.cpp::get_color_transform_3dlut", "src/colorlutimage.cpp::get_color_ops_lut", "src/colorlutimage.rs::get_color_transform_3dlut", "src/colorlutimage.rs::get_color_ops_lut", "src/cache.rs::CacheImpl::get", "src/cache.rs::CacheImpl::insert", "src/graph.cpp::Graph::execute"]}
{"id": "C116", "title": "What a C++ program gets follows from the calls it made", "statement": "A program creates nodes (each id once), sets their attributes and connects different nodes (at most one connection between two nodes at a time), connects inputs anew, disconnects inputs (the only one connected or the one connected last of a node) and deletes nodes, in any order, on any number of graphs and caches, executing and asking for lookup tables as often as it likes in between. Then executing a node whose upstream part is a tree or has levels terminates, reports success, and the output of the graph is the picture obtained by reading the calls alone: the node as created and then set by every later setting, fed by what is still connected to its inputs, in the order of the inputs; and for every frame every active writer above the node has left its file. Two sequences of calls that set up the same nodes and connections give the same picture. Needed: sensible settings, no hash collisions, and that written files do not overwrite files that are read.", "quantifier": "for all finite sequences of C++ calls, all frames, all externals and disks, both build profiles", "why_tests_cant": "quantifies over all programs of the API and everything executed and cached before", "anchors": ["src/graph.cpp::Graph::create_node", "src/graph.cpp::Graph::connect", "src/graph.cpp::Graph::execute", "src/graph.cpp::Graph::output_stream", "src/graph.cpp::Graph::set_node_attr_f32", "src/graph.rs::GraphImpl::connect", "src/graph.rs::GraphImpl::execute", "src/ops/write_image.rs::WriteImageOperation::compute"]}
{"id": "C117", "title": "C++ programs that have set up the same see the same", "statement": "Two programs, or one program at two moments, each build a composition with their own ids, on their own graphs, by calls in any order, with executions and lookup tables in between and with any number of caches. If the two executed nodes are related by a relation under which nodes have the same type, attributes that read the same, readers whose files have the same contents, and related nodes connected in the same order (the numbers of the inputs may differ), nodes that pass on what they are given left aside, then both outputs look the same: same picture, same windows, same pending colour operations. Needed: no lens switched on, no reader naming a directory, sensible settings, no hash collisions, and that written files do not overwrite files that are read.", "quantifier": "for all pairs of finite sequences of C++ calls, all relations, frames, externals and disks, both build profiles", "why_tests_cant": "relates two unbounded programs and everything they executed and cached before", "anchors": ["src/graph.cpp::Graph::create_node", "src/graph.cpp::Graph::connect", "src/graph.cpp::Graph::execute", "src/graph.cpp::Graph::output_stream", "src/graph.rs::GraphImpl::execute", "src/cache.rs::CacheImpl::get"]}
{"id": "C118", "title": "What a C++ program leaves as it was, or puts back, looks as it did", "statement": "A program executes a node, does other things, and executes the node again for the same frame. If everything above the node reads the same and is connected the same as before, and the files read are the same, both outputs look the same: same picture, same windows, same pending colour operations. This is so when the calls in between only ask questions, execute anything, change caches, bake lookup tables, work on other graphs, create nodes, or set, connect, disconnect or delete nodes that are not above the node. It is also so when an attribute was set and then set to what it read before (also if that was its default), and when something else was connected to an input and then what was connected before, each with such calls in between. These may follow one another any number of times.", "quantifier": "for all finite sequences of C++ calls before and in between, all nodes, frames, externals and disks, both build profiles", "why_tests_cant": "relates two moments of an unbounded program, with caches filled by everything executed in between", "anchors": ["src/graph.cpp::Graph::execute", "src/graph.cpp::Graph::output_stream", "src/graph.cpp::Graph::set_node_attr_i32", "src/graph.cpp::Graph::connect", "src/graph.rs::GraphImpl::execute", "src/cache.rs::CacheImpl::get"]}
{"id": "C119", "title": "C++ programs that have set up the same render the same files", "statement": "Two C++ programs start with the same files. Each has built a composition under a writer by any calls: in any order, on any graph, with any identifiers and input numbers, with or without nodes that pass their input on, with other graphs and caches in use. If the writers read the same and what feeds them is built the same, and each executes its writer successfully for the same frames, the files are the same afterwards: same paths, same contents, nothing else changed. This does not depend on what either program executed before or what its caches hold.", "quantifier": "for all pairs of finite sequences of C++ calls, all frames, externals and disks, both build profiles", "why_tests_cant": "relates two unbounded programs, with caches, identifiers and call orders that share nothing", "anchors": ["src/graph.cpp::Graph::execute", "src/graph.rs::GraphImpl::execute", "src/node/write_image.rs::compute", "src/cache.rs::CacheImpl::get"]}
{"id": "C120", "title": "The text of a graph lists the nodes created", "statement": "After any sequence of C++ calls, the text a graph gives about itself is the drawing of its connections followed by exactly one line for each node ever created in it, in the order of creation. The lines are numbered from 0. Each gives the identifier the node was created under, and the status and attributes the getters answer for this identifier, of the type the first node with this identifier was created with.", "quantifier": "for all finite sequences of C++ calls, all graphs and identifiers, both build profiles", "why_tests_cant": "quantifies over all call sequences, and over all identifiers used", "anchors": ["src/graph.rs::GraphImpl::data_debug_string", "src/graph.rs::GraphImpl::node_attrs_data_debug_string", "src/graph.cpp::Graph::data_debug_string", "src/node.rs::NodeImpl::data_debug_string"]}
{"id": "C121", "title": "The frames to be rendered can be shared among C++ programs", "statement": "Any number of C++ programs render frames of one composition one after the other, each finding the files the others left. Each has built the composition by any calls: in any order, on any graph, with any identifiers, with or without nodes that pass their input on, after any other executions and with any caches. However the frames are divided among the programs, in whichever order they are rendered and however often, the file system is the same in the end. If one program alone could render all of them, these are the files it would leave: for every frame and every writer the composition before it.", "quantifier": "for all numbers of programs, all finite sequences of C++ calls, all divisions of the frames, externals and disks, both build profiles", "why_tests_cant": "relates unboundedly many programs with different caches, identifiers and call orders, and all orders of rendering", "anchors": ["src/graph.cpp::Graph::execute", "src/graph.rs::GraphImpl::execute", "src/node/write_image.rs::compute", "src/node/read_image.rs::compute", "src/cache.rs::CacheImpl::get"]}
{"id": "C122", "title": "Names cross to the lens model and back unharmed", "statement": "Every lens value is heard by the lens model under its own name, whatever lies behind that name in memory. A lens model whose names are UTF-8 of at most 99 bytes can be asked to describe itself without ending the process, and the text has for each parameter, in order, the type, default and range that belong to this parameter.", "quantifier": "for all lens models, all names (all byte sequences), any number of parameters, all contents of the memory behind a string", "why_tests_cant": "names are any bytes, and what a string without end is heard as depends on the memory behind it", "anchors": ["src/deformer/tde4_classic.rs::commit_data", "src/deformer/tde4_classic.rs::data_debug_string", "src/deformer/ldpk_utils.rs::LensDistortionPlugin", "src/deformer/ldpk_utils.cpp::OcgLdPluginBase"]}
{"id": "C123", "title": "Pictures are shared without anyone noticing", "statement": "Streams, cached images and clients share the pixels of a picture. However they are made, copied, changed, handed over and dropped, each sees what it would see with a picture of its own: a change through one is never seen through another. No picture is used after it was freed, there are never more pictures in memory than are held and none when none is held, copying a stream makes no new picture and who holds the only one changes it in place.", "quantifier": "for all finite sequences of making, copying, changing, taking over and dropping, any number of holders, all changes", "why_tests_cant": "quantifies over all interleavings of sharing and changing; reference counts are not visible to a test", "anchors": ["src/stream.rs::StreamDataImpl::set_pixel_block", "src/stream.rs::StreamDataImpl::pixel_block_as_mut", "src/stream.rs::StreamDataImplRc", "src/cache.rs::CachedImage", "src/graph.rs::GraphImpl::output_stream"]}
{"id": "C124", "title": "Read, grade, write: every pixel of the file", "statement": "A program that connects a reader of a linear RGB or RGBA file, any number of grade nodes and a writer, and executes, finds in the file, at every place of the data window of the source, the source's pixel with the grades applied in order by their attributes as last set, as numbers of the type the writer is told; the file has the source's data window, or, if the writer is told to cut, its display window with black where the source has no pixels.", "quantifier": "for all programs (sequences of calls, in any order), files, settings, numbers of grade nodes, frames and pixels", "why_tests_cant": "quantifies over all programs, all settings and all pixel values; no finite set of pictures shows that nothing else happens to any pixel", "anchors": ["src/node/grade.rs::compute", "src/node/read_image.rs::compute", "src/node/write_image.rs::compute", "src/ops/colorgrade.rs::grade", "src/graph.rs::GraphImpl::execute", "src/ops/bake.rs::do_process"]}
{"id": "C125", "title": "Read, grade, transform, write: every pixel of the file", "statement": "A program that connects a reader of a linear RGBA file, any number of grade, transform and null nodes in any order, and a writer, and executes, finds in the file at every place the one pixel of the source that the transforms that are on, as last set and undone together, lead back to, with all grades applied in order; where grades and transforms stand relative to each other does not matter. The file keeps the source's data window, rounded to whole pixels, or shows the display window with black around it.", "quantifier": "for all programs (sequences of calls, in any order), files, settings, numbers and orders of nodes, frames and pixels", "why_tests_cant": "quantifies over all programs and orders of nodes and over all pixels; a test shows single pictures", "anchors": ["src/node/grade.rs::compute", "src/node/transform.rs::compute", "src/node/null.rs::compute", "src/node/read_image.rs::compute", "src/node/write_image.rs::compute", "src/deformutils.rs::apply_deformers_to_pixels", "src/ops/bake.rs::do_process"]}
{"id": "C126", "title": "Read two files, grade each, merge, write: every pixel of the file", "statement": "A program that connects two readers of linear RGBA files, any number of grade nodes below each, a merge node that is on with one of its modes, any number of grade nodes below it, and a writer, and executes, finds in the file at every place the merge formula of the mode and mix applied to the two graded colours, graded by the nodes below the merge, a file counting as black and transparent outside its data window. The file shows the smallest window around both data windows, or the display window of the second file with black around it.", "quantifier": "for all programs (sequences of calls, in any order), pairs of files, settings, numbers of grades, modes, frames and pixels", "why_tests_cant": "quantifies over all programs and over all pixels of all pairs of pictures; a test shows single pictures", "anchors": ["src/node/merge_image.rs::compute", "src/ops/imagemerge.rs::merge", "src/node/grade.rs::compute", "src/node/read_image.rs::compute", "src/node/write_image.rs::compute", "src/ops/bake.rs::do_process"]}
