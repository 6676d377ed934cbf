{"id": "C01", "title": "Reported distance is the true shortest hop count", "statement": "On every machine (no wrap, horizontal, vertical or full wrap) get_vector_length(source, destination) is exactly the smallest number of single link hops (each hop being one application of xy_over_link over some link 0..5) that leads from source to destination: a route of that many hops exists and no route has fewer.", "quantifier": "all four wrap kinds, all widths and heights >= 1, all source and destination coordinates (inside the range in each wrapping dimension)", "why_tests_cant": "The claim compares a closed-form branchy formula with a minimum over infinitely many routes, for every machine size; tests sample a few sizes against another formula.", "anchors": ["spinn_machine/no_wrap_machine.py:get_vector_length", "spinn_machine/horizontal_wrap_machine.py:get_vector_length", "spinn_machine/vertical_wrap_machine.py:get_vector_length", "spinn_machine/full_wrap_machine.py:get_vector_length", "spinn_machine/machine.py:LINK_ADD_TABLE"]}
{"id": "C02", "title": "The vector leads to the destination and is as short as the distance", "statement": "get_vector(source, destination)=(x,y,z) is a valid shortest route: walking |x| hops on link 0 (or 3 if x<0), |y| hops on link 2 (or 5 if y<0) and |z| hops on link 4 (or 1 if z<0), with xy_over_link, ends exactly at destination, and |x|+|y|+|z| = get_vector_length(source, destination), at most two components being non-zero and, if two are, with opposite signs. (The docstring's other reading, that (0,0,1) means the same as (1,1,0), is not what the code returns.) The hops may be taken in any order: every rearrangement of the same hops ends at the same chip.", "quantifier": "all four wrap kinds, all sizes >= 1, all sources and destinations", "why_tests_cant": "Infinitely many sizes and pairs; branches around ties only differ on particular residues.", "anchors": ["spinn_machine/machine.py:Machine._minimize_vector", "spinn_machine/full_wrap_machine.py:get_vector", "spinn_machine/horizontal_wrap_machine.py:get_vector", "spinn_machine/vertical_wrap_machine.py:get_vector", "spinn_machine/no_wrap_machine.py:get_vector"]}
{"id": "C03", "title": "Crossing a link and its opposite returns to the start", "statement": "For every chip coordinate and link id l in 0..5, xy_over_link over l followed by xy_over_link over Router.opposite(l) returns the starting coordinate, opposite is an involution without fixed points on 0..5, two different links never lead to the same chip on a machine whose wrapping dimensions are at least 3, and on wrapped dimensions the result is always inside the machine.", "quantifier": "all wrap kinds, all sizes, all coordinates, all six links", "why_tests_cant": "All sizes and coordinates at wrap edges.", "anchors": ["spinn_machine/machine.py:Machine.LINK_ADD_TABLE", "spinn_machine/full_wrap_machine.py:xy_over_link", "spinn_machine/horizontal_wrap_machine.py:xy_over_link", "spinn_machine/vertical_wrap_machine.py:xy_over_link", "spinn_machine/no_wrap_machine.py:xy_over_link", "spinn_machine/router.py:Router.opposite"]}
{"id": "C04", "title": "Distance is a metric", "statement": "get_vector_length is symmetric, zero exactly when source and destination coincide, never negative and satisfies the triangle inequality on every machine kind. It is the same everywhere: if the same hops (with xy_over_link) are taken from both ends, the distance between the ends of the two routes is the original one. The chips at distance 1 are exactly the other chips that the six links lead to.", "quantifier": "all wrap kinds, all sizes >= 1, all triples of coordinates", "why_tests_cant": "Triples over unbounded sizes cannot be enumerated.", "anchors": ["spinn_machine/no_wrap_machine.py:get_vector_length", "spinn_machine/horizontal_wrap_machine.py:get_vector_length", "spinn_machine/vertical_wrap_machine.py:get_vector_length", "spinn_machine/full_wrap_machine.py:get_vector_length"]}
{"id": "C05", "title": "concentric_xys enumerates the ball", "statement": "concentric_xys(radius, start) yields exactly the coordinates whose distance from start is at most radius, in non-decreasing order of unwrapped distance, starting with start; without wrap-around each coordinate is produced exactly once and there are 1+3r(r+1) of them.", "quantifier": "all radii, all starts, all wrap kinds and sizes", "why_tests_cant": "The spiral walk is an unbounded loop; only induction over the radius shows no gap or duplicate.", "anchors": ["spinn_machine/machine.py:Machine._basic_concentric_xys", "spinn_machine/no_wrap_machine.py:concentric_xys", "spinn_machine/horizontal_wrap_machine.py:concentric_xys", "spinn_machine/vertical_wrap_machine.py:concentric_xys", "spinn_machine/full_wrap_machine.py:concentric_xys"]}
{"id": "C06", "title": "Local and global coordinates are inverse", "statement": "For a chip inside the machine whose nearest Ethernet chip is e: get_global_xy(get_local_xy(chip), e) = chip's coordinates; conversely for every local coordinate of the board and Ethernet position, a chip placed at get_global_xy(local, e) reports get_local_xy = local.", "quantifier": "all wrap kinds and sizes, all coordinates in range, all ethernet positions in range", "why_tests_cant": "All sizes and positions across the wrap seam.", "anchors": ["spinn_machine/full_wrap_machine.py:get_local_xy", "spinn_machine/full_wrap_machine.py:get_global_xy", "spinn_machine/horizontal_wrap_machine.py:get_local_xy", "spinn_machine/vertical_wrap_machine.py:get_local_xy", "spinn_machine/no_wrap_machine.py:get_local_xy"]}
{"id": "C07", "title": "Existing and down chips partition a board", "statement": "For any machine state and board: get_existing_xys_by_ethernet and get_down_xys_by_ethernet together list exactly get_xys_by_ethernet, each coordinate in exactly one of the two according to whether the machine has that chip; get_xy_cores_by_ethernet lists the same coordinates with the board's core counts; get_chips_by_ethernet lists the chips at the existing coordinates and never fails. get_existing_xys_on_board of a chip lists the existing coordinates of the chip's board; on a virtual machine these are the chips with the same nearest Ethernet chip.", "quantifier": "all machine states, wrap kinds, ethernet positions", "why_tests_cant": "Ranges over all machine states (subsets of chips) and positions.", "anchors": ["spinn_machine/machine.py:get_chips_by_ethernet", "spinn_machine/full_wrap_machine.py:get_xys_by_ethernet", "spinn_machine/full_wrap_machine.py:get_existing_xys_by_ethernet", "spinn_machine/full_wrap_machine.py:get_down_xys_by_ethernet", "spinn_machine/full_wrap_machine.py:get_xy_cores_by_ethernet", "spinn_machine/horizontal_wrap_machine.py", "spinn_machine/vertical_wrap_machine.py", "spinn_machine/no_wrap_machine.py"]}
{"id": "C08", "title": "Triad geometry gives the unique board of every chip", "statement": "For the SpiNN-5 geometry, get_local_chip_coordinate(x,y,root) is the one and only offset (dx,dy) such that (dx,dy) is one of the 48 positions of the board and (x-dx, y-dy) is a board origin of the triad pattern anchored at root (x difference divisible by 4, sum of differences divisible by 12); get_ethernet_chip_coordinates returns that origin wrapped into the machine.", "quantifier": "all integers x, y, root_x, root_y (any width/height multiple of 12 for the wrapped form)", "why_tests_cant": "The table is built from floating-point hexagonal distances with ties; correctness must hold for every coordinate of an unbounded plane.", "anchors": ["spinn_machine/spinnaker_triad_geometry.py:SpiNNakerTriadGeometry", "spinn_machine/version/version_5.py:CHIPS_PER_BOARD", "spinn_machine/version/version_248.py:CHIPS_PER_BOARD"]}
{"id": "C09", "title": "Potential Ethernet chips are exactly the legal board origins", "statement": "For every size accepted by verify_size of a 48-chip version, get_potential_ethernet_chips lists without duplicates exactly the triad origins that lie in the machine and, in each non-wrapping dimension, whose 8x8 board fits completely; (0,0) is among them and illegal_ethernet_message accepts each one.", "quantifier": "all accepted widths and heights, versions 5 and 248", "why_tests_cant": "Unbounded family of machine sizes.", "anchors": ["spinn_machine/spinnaker_triad_geometry.py:get_potential_ethernet_chips", "spinn_machine/version/version_48_chips.py:illegal_ethernet_message", "spinn_machine/version/version_48_chips.py:_verify_size"]}
{"id": "C10", "title": "Boards tile the machine", "statement": "For every accepted size of a 48-chip version, the boards given by get_xys_by_ethernet over the potential Ethernet chips lie inside the machine and are pairwise disjoint with 48 distinct chips each; when both dimensions wrap they cover every coordinate of the machine.", "quantifier": "all accepted sizes and all coordinates", "why_tests_cant": "Disjointness and coverage over an unbounded family of sizes.", "anchors": ["spinn_machine/version/version_48_chips.py:_create_machine", "spinn_machine/spinnaker_triad_geometry.py:get_potential_ethernet_chips", "spinn_machine/full_wrap_machine.py:get_xys_by_ethernet"]}
{"id": "C11", "title": "Accepted sizes and machine class", "statement": "create_machine(width,height) raises SpinnMachineException exactly when the size is not one the version supports (version 3: 2x2; 201: 1x1; 5 and 248: 8x8, or both > 8 and multiples of 4) or is missing; otherwise it returns an empty machine of that size that wraps in exactly the dimensions that are multiples of 12 (2x2 boards wrap fully, 1x1 do not).", "quantifier": "all versions and all optional integer widths and heights", "why_tests_cant": "All integers incl. negatives, zero and missing.", "anchors": ["spinn_machine/version/abstract_version.py:verify_size", "spinn_machine/version/abstract_version.py:create_machine", "spinn_machine/version/version_48_chips.py", "spinn_machine/version/version_3.py", "spinn_machine/version/version_201.py"]}
{"id": "C12", "title": "size_from_n_boards gives a legal size with enough boards", "statement": "For every n_boards up to 3*2^52, size_from_n_boards returns, and the size is accepted by verify_size and has at least n_boards potential Ethernet chips, with the interpreter's floating-point division and square root taken into account (at 3*2^52+1 the rounding loses a board); single board versions return their board for exactly 1 and raise otherwise. Asking for more boards never gives a smaller width or height.", "quantifier": "all n_boards up to 3*2^52 for the 48 chip versions, all n_boards for the others", "why_tests_cant": "Rounding of ceil(sqrt(.)) over all integers.", "anchors": ["spinn_machine/version/version_48_chips.py:size_from_n_boards", "spinn_machine/version/abstract_version.py:size_from_n_boards"]}
{"id": "C13", "title": "size_from_n_chips and size_from_n_cores give enough chips and cores", "statement": "The virtual machine by n boards has at least n boards; the one by n chips, of size size_from_n_chips(n), has at least n chips; the one by n cores, of size size_from_n_cores(n), has at least n user cores left after scamp and the registered monitor cores, provided no cfg limit on cores is set and the monitors leave cores on each board. Both ask for no more boards than needed. (With cfg max_machine_core set, or more monitors than cores, the claim on cores fails.)", "quantifier": "all n, all versions, all registered monitor counts that leave a positive number of cores per board", "why_tests_cant": "Combines unbounded n, monitor counts and sizes.", "anchors": ["spinn_machine/version/abstract_version.py:size_from_n_cores", "spinn_machine/version/abstract_version.py:size_from_n_chips", "spinn_machine/virtual_machine.py:virtual_machine_by_cores"]}
{"id": "C14", "title": "virtual_machine_by_min_size covers the requested size", "statement": "On 48-chip versions, for all positive requested sizes (below 2^53) the computed size is accepted by verify_size, at least as large as requested in both dimensions, and the least accepted size in whole 8 by 8 boards; on single-board versions a machine is made exactly if the request fits the board.", "quantifier": "all positive widths and heights", "why_tests_cant": "Unbounded sizes with edge cases at one board.", "anchors": ["spinn_machine/virtual_machine.py:virtual_machine_by_min_size"]}
{"id": "C15", "title": "cfg can only lower limits", "statement": "A version's max_cores_per_chip and max_sdram_per_chip are the minimum of the version's default and the cfg value, so the cfg never increases them; a cfg with only one of width/height or an unsupported size is rejected when the version is created.", "quantifier": "all cfg values, all versions", "why_tests_cant": "All integers.", "anchors": ["spinn_machine/version/abstract_version.py:AbstractVersion.__init__"]}
{"id": "C16", "title": "Quad coordinates and core ids are a bijection", "statement": "On Spin2 versions id_to_qx_qy_qp and qx_qy_qp_to_id are mutually inverse on ids 0..152 and any other id or coordinate raises KeyError. The coordinates that have an id are (0, 0, 0), for core 0, and the four cores of each of the 38 quads (7 columns, 6 rows, without (4, 3), (4, 4), (7, 3), (7, 4)); the ids of the cores of a quad follow each other.", "quantifier": "all integers as core id, all integer triples", "why_tests_cant": "Table errors (duplicate entry) anywhere break it; inverse built from a dict drops duplicates silently.", "anchors": ["spinn_machine/version/version_spin2.py:QUAD_MAP", "spinn_machine/version/version_spin2.py:qx_qy_qp_to_id", "spinn_machine/version/version_spin2.py:id_to_qx_qy_qp"]}
{"id": "C17", "title": "parse_cores_string meaning", "statement": "A decimal core id string parses to exactly that id, 'a-b' to a..b inclusive (empty if a>b), 'qx.qy.qp' on Spin2 to the core of those quad coordinates, and every string of another form is rejected with an exception.", "quantifier": "all strings, all versions, all integers", "why_tests_cant": "All strings.", "anchors": ["spinn_machine/version/abstract_version.py:parse_cores_string", "spinn_machine/version/version_spin2.py:version_parse_cores_string", "spinn_machine/version/version_spin1.py:version_parse_cores_string"]}
{"id": "C18", "title": "version_factory never returns a version contradicting the cfg", "statement": "Whatever the cfg, version_factory either raises or returns a version consistent with every cfg setting that determines one (version/versions, spalloc_server or remote url meaning version 5, width and height); conflicting machine sources always raise; no setting at all raises. The versions setting names a group of versions, in any case and with blanks, - and _ anywhere; any other text raises; the groups are what their names say.", "quantifier": "all combinations of cfg settings", "why_tests_cant": "The cross product of optional settings is unbounded (ints, strings).", "anchors": ["spinn_machine/version/version_factory.py:version_factory", "spinn_machine/version/version_factory.py:_get_url_version", "spinn_machine/version/version_factory.py:_get_size_version", "spinn_machine/version/version_factory.py:_number_to_version", "spinn_machine/version/version_strings.py:VersionStrings"]}
{"id": "C19", "title": "Machine is a map of chips under any history of add_chip", "statement": "After any sequence of add_chip/add_chips calls: a chip is found (get_chip_at, is_chip_at, [], in, iteration) at exactly the coordinates where a chip was successfully added and is the first chip added there; a second chip at the same coordinates raises SpinnMachineAlreadyExistsException and changes nothing; n_chips = len = number of distinct coordinates; iteration is in order of adding.", "quantifier": "all sequences of add_chip calls with all chips", "why_tests_cant": "Unbounded histories.", "anchors": ["spinn_machine/machine.py:Machine.add_chip", "spinn_machine/machine.py:Machine.add_chips", "spinn_machine/machine.py:Machine.get_chip_at", "spinn_machine/machine.py:Machine.is_chip_at", "spinn_machine/machine.py:Machine.__len__"]}
{"id": "C20", "title": "Counts agree with the chips", "statement": "After any history of add_chip: get_cores_count() = total_cores = sum of n_processors over chips, 2*get_links_count() = sum of the number of links over chips, total_available_user_cores = sum of placable cores, and total_cores - total_available_user_cores = number of scamp cores.", "quantifier": "all histories of add_chip (routers not changed afterwards)", "why_tests_cant": "Two bookkeeping mechanisms must agree after every history.", "anchors": ["spinn_machine/machine.py:Machine.get_cores_count", "spinn_machine/machine.py:Machine.get_links_count", "spinn_machine/machine.py:Machine.total_cores", "spinn_machine/machine.py:Machine.total_available_user_cores"]}
{"id": "C21", "title": "Ethernet chips and boot address track the chips", "statement": "After any history: ethernet_connected_chips are exactly the chips with an ip address in order of adding; the boot address is set exactly when a chip with an ip address is at (0,0) and then is its address.", "quantifier": "all histories of add_chip", "why_tests_cant": "Unbounded histories.", "anchors": ["spinn_machine/machine.py:Machine.add_chip", "spinn_machine/machine.py:Machine.ethernet_connected_chips"]}
{"id": "C22", "title": "validate accepts exactly well-formed machines", "statement": "validate() returns normally iff there is an Ethernet chip at (0,0), more than one Ethernet chip only if the version supports multiple boards, every chip is inside the width and height, has at least the minimum number of cores, Ethernet chips are at legal positions, and every other chip's nearest Ethernet coordinate holds a chip and its local coordinate is on the board; otherwise it raises SpinnMachineException.", "quantifier": "all machine states reachable by add_chip, all versions", "why_tests_cant": "All machine states.", "anchors": ["spinn_machine/machine.py:Machine.validate"]}
{"id": "C23", "title": "get_unused_xy is unused", "statement": "On any machine with positive height get_unused_xy terminates and returns a coordinate with x >= 0 and 0 <= y < height at which there is no chip and which is on no existing board, the first such in column order; calling it again gives the same answer until a chip or board covers it.", "quantifier": "all machine states", "why_tests_cant": "The search is an unbounded loop over all states.", "anchors": ["spinn_machine/machine.py:Machine.get_unused_xy"]}
{"id": "C24", "title": "SpiNNaker link lookups", "statement": "After add_spinnaker_links on a machine whose boards are disjoint with distinct addresses: looking up (id, board address) succeeds iff the chip at the position of that link id on the board (chip (0, 0) link 4 on version 5; chip (0, 0) link 3 and chip (1, 0) link 0 on version 3; none on the others) exists and its link is not in use, and returns that chip, link and address; looking up by that chip's coordinates gives the same data; without arguments the boot board is used; all other lookups raise KeyError. The spinnaker_links iteration gives every present link once under its board address and once under its chip, and nothing else; calling add_spinnaker_links again changes nothing. On the machine that virtual_machine returns these look-ups hold as they are, without conditions.", "quantifier": "all machine states, all versions, all ids and addresses", "why_tests_cant": "All machine states incl. wrap-around boards and dead chips.", "anchors": ["spinn_machine/machine.py:Machine.add_spinnaker_links", "spinn_machine/machine.py:Machine.get_spinnaker_link_with_id", "spinn_machine/machine.py:Machine._add_spinnaker_link"]}
{"id": "C25", "title": "FPGA link lookups", "statement": "After add_fpga_links under the same conditions: lookup by (fpga, link, board address), by the connected chip's coordinates and by the board's Ethernet chip coordinates all return the same data, present iff the chip at the board-local position exists; it names that chip and chip link. The chip's link id out of the board is one of the 48 edge links and (fpga id, fpga link id) determines it uniquely; the numbering goes clockwise round the edge of the board. Calling add_fpga_links again changes nothing. n_fpga_links, documented as the number of FPGA links, is in fact three per present link less one per link of the Ethernet chip (141 for a full board of 48). On the machine that virtual_machine returns these look-ups hold as they are, without conditions.", "quantifier": "all machine states, ids, addresses", "why_tests_cant": "All machine states; key collisions between boards and chips must be excluded for all of them.", "anchors": ["spinn_machine/machine.py:Machine.add_fpga_links", "spinn_machine/machine.py:Machine._add_fpga_link", "spinn_machine/machine.py:Machine.get_fpga_link_with_id", "spinn_machine/version/version_5.py:fpga_links"]}
{"id": "C26", "title": "Unreachable and one-way reports are exact", "statement": "one_way_links yields (x,y,out,back) exactly for chips with a link out (0..5) whose destination chip lacks link back = opposite(out); unreachable_outgoing_chips lists exactly the chips with no link 0..5; the incoming and local variants list exactly the chips with no (same-board) neighbour at the unwrapped offsets linked in the corresponding direction. On a wrapping machine the neighbour across the wrap seam is not considered, so the documented meaning fails there.", "quantifier": "all machine states", "why_tests_cant": "All machine states and link subsets.", "anchors": ["spinn_machine/machine.py:Machine.one_way_links", "spinn_machine/machine.py:Machine.unreachable_outgoing_chips", "spinn_machine/machine.py:Machine.unreachable_incoming_chips", "spinn_machine/machine.py:Machine.unreachable_outgoing_local_chips", "spinn_machine/machine.py:Machine.unreachable_incoming_local_chips"]}
{"id": "C27", "title": "min_n_router_enteries returns the largest number of router entries", "statement": "min_n_router_enteries returns the number of router entries of some chip and no chip has more; IndexError on a machine without chips. (Name and docstring promise the minimum: that claim is refuted by a machine with two different routers.)", "quantifier": "all machine states", "why_tests_cant": "Machines built by the tests are uniform, so minimum and maximum coincide.", "anchors": ["spinn_machine/machine.py:Machine.min_n_router_enteries"]}
{"id": "C28", "title": "virtual_machine builds exactly the boards minus the down chips", "statement": "For every accepted size and every down_chips/down_cores/down_links cfg: the machine has exactly the chips of the boards that are not down; a chip at a potential Ethernet position has address 127.0.x.y and others none; nearest Ethernet is the origin of its board, agreeing with the triad geometry; core 0 is the only scamp core and the placable cores are 1..n-1 minus the down cores with n the smaller of the board's core count and the cfg limit.", "quantifier": "all versions, accepted sizes, all down sets", "why_tests_cant": "Unbounded sizes and arbitrary down sets.", "anchors": ["spinn_machine/virtual_machine.py:_VirtualMachine"]}
{"id": "C29", "title": "Links of a virtual machine", "statement": "A chip of a virtual machine has link l (0..5) iff l is not down (by cfg, or by the fixed list on a 2-wide board) and the chip over the link exists; the link's destination is xy_over_link; hence every link leads to an existing chip, and if the down link set is closed under reversal there are no one-way links.", "quantifier": "all versions, accepted sizes, all down sets", "why_tests_cant": "Unbounded sizes and down sets.", "anchors": ["spinn_machine/virtual_machine.py:_VirtualMachine._calculate_links"]}
{"id": "C30", "title": "A fault-free virtual machine is valid, complete and needs no repair", "statement": "For every accepted size and version with no down items (and no core limit below the minimum): creation with validate=True succeeds, the number of chips is chips-per-board times boards, and machine_repair returns the very same machine under both repair settings - except on version 201, whose single chip machine_repair always calls unreachable and so always raises.", "quantifier": "all versions and accepted sizes", "why_tests_cant": "Unbounded family of sizes, incl. boards cut by the wrap seam.", "anchors": ["spinn_machine/virtual_machine.py", "spinn_machine/machine_factory.py:machine_repair", "spinn_machine/machine.py:Machine.validate"]}
{"id": "C31", "title": "machine_repair terminates", "statement": "machine_repair always either returns or raises: each recursive call works on a machine with strictly fewer chips plus links.", "quantifier": "all machines, both repair settings, all removed-chip lists", "why_tests_cant": "Unbounded recursion on arbitrary machines.", "anchors": ["spinn_machine/machine_factory.py:machine_repair", "spinn_machine/machine_factory.py:_machine_ignore"]}
{"id": "C32", "title": "A machine returned by machine_repair is clean", "statement": "If machine_repair returns, the returned machine has no one-way links, no chip that unreachable_incoming_local_chips or unreachable_outgoing_local_chips reports, and every chip with a recorded parent link has its parent chip present.", "quantifier": "all machines, both settings", "why_tests_cant": "Repair of one defect can create another; only the fixpoint argument settles it.", "anchors": ["spinn_machine/machine_factory.py:machine_repair"]}
{"id": "C33", "title": "machine_repair only removes", "statement": "The returned machine has the same size, only chips of the original, each with the same cores, SDRAM, Ethernet, address, tags and router size and a subset of its links; if nothing is wrong the original itself is returned; nothing is removed without need (any set of chips and links that is sound by itself is kept). A chip rebuilt without a link forgets its parent, so it stays even if its parent goes. Repairing a repaired machine returns it itself, and two machines with the same chips added in different orders lose the same chips and links (when no chip records a parent). Of a machine with fewer chips and links less is left after the repair.", "quantifier": "all machines, both settings", "why_tests_cant": "All machines.", "anchors": ["spinn_machine/machine_factory.py:_machine_ignore", "spinn_machine/machine_factory.py:machine_repair"]}
{"id": "C34", "title": "With repair off, unexpected defects always raise", "statement": "With repair_machine False: if the machine has an unreachable local chip, a missing parent, or a one-way link whose target is not in removed_chips then SpinnMachineException (or a KeyError or IndexError while composing the message, only if an Ethernet chip is missing or a parent link is no link id) is raised; if the only defects are one-way links to removed chips exactly those links are silently removed.", "quantifier": "all machines and removed lists", "why_tests_cant": "All machines.", "anchors": ["spinn_machine/machine_factory.py:machine_repair"]}
{"id": "C35", "title": "JSON round trip", "statement": "machine_from_json(to_json(m)) with the same version rebuilds m: same size and wrap, same chips in the same order with same coordinates, links, cores, SDRAM, router entries, Ethernet, address and tags, and the same SpiNNaker and FPGA links, for every machine whose chips have monitor core 0, cores numbered without gaps, and links 0..5 leading where xy_over_link says. Virtual machines without down cores, and whatever machine_repair makes of them, are of that kind. A machine with a gap in the core numbers comes back with the same core count but different core ids. Writing the machine that was read gives the same JSON again, and a machine that was read from JSON survives every further round trip.", "quantifier": "all machines (sizes, chips, exceptions to the standard resources)", "why_tests_cant": "The exception encoding relative to standard resources must be inverse for all machines.", "anchors": ["spinn_machine/json_machine.py:to_json", "spinn_machine/json_machine.py:_describe_chip", "spinn_machine/json_machine.py:machine_from_json"]}
{"id": "C36", "title": "Route encoding round trip", "statement": "RoutingEntry from processor ids >= -6 and link ids >= 0 succeeds (else ValueError) and in its spinnaker_route bit i is set iff link i is given or processor i-6 is given. RoutingEntry(spinnaker_route=...) recovers the same processor and link id sets iff all processor ids are in 0..17 and all link ids in 0..5; conversely rebuilding an entry from the ids of a route gives the route modulo 2^24, so exactly the routes in 0..2^24-1 come back. Reading the ids of an entry changes nothing that can be seen. A single id means the same as a collection with just that id.", "quantifier": "all finite sets/collections of ids, all integers as route", "why_tests_cant": "2^24 routes and all collections with duplicates.", "anchors": ["spinn_machine/routing_entry.py:RoutingEntry._calc_spinnaker_route", "spinn_machine/routing_entry.py:RoutingEntry._calc_routing_ids"]}
{"id": "C37", "title": "Router conversion functions agree and reject bad ids", "statement": "convert_routing_table_entry_to_spinnaker_route raises SpinnMachineInvalidParameterException iff some processor id is outside 0..17 or link id outside 0..5; otherwise it gives the entry's spinnaker_route modulo 2^24, which for entries made from ids is the entry's spinnaker_route; convert_spinnaker_route_to_routing_ids is its inverse and lists the ids in ascending order.", "quantifier": "all entries, all routes", "why_tests_cant": "All collections of ids.", "anchors": ["spinn_machine/router.py:Router.convert_routing_table_entry_to_spinnaker_route", "spinn_machine/router.py:Router.convert_spinnaker_route_to_routing_ids"]}
{"id": "C38", "title": "Merging joins destinations", "statement": "merge of two entries with routable ids routes to exactly the union of destinations; for all entries it never raises and is commutative, associative and idempotent up to ==; the result is defaultable iff both were equal and defaultable. Multicast merge raises iff key or mask differ, and keeps key and mask. (With ids outside 0..17 / 0..5 destinations can be lost: refuted.) The multicast result has exactly the processors and links of both and its route word has exactly their bits.", "quantifier": "all entries with routable ids", "why_tests_cant": "All pairs and triples of entries.", "anchors": ["spinn_machine/routing_entry.py:RoutingEntry.merge", "spinn_machine/multicast_routing_entry.py:MulticastRoutingEntry.merge"]}
{"id": "C39", "title": "Multicast entries keep their key inside the mask", "statement": "Every MulticastRoutingEntry that can be created, directly or by any sequence of merges, satisfies key & mask == key; construction raises exactly when it does not.", "quantifier": "all integer keys and masks, all merge sequences", "why_tests_cant": "All integers.", "anchors": ["spinn_machine/multicast_routing_entry.py:MulticastRoutingEntry.__init__"]}
{"id": "C40", "title": "Defaultable means default routing", "statement": "An entry created from ids with an incoming link is defaultable iff the link argument is exactly one id and it is the link opposite to the incoming link, whatever the processors; without an incoming link it is never defaultable; from a route it is defaultable iff it was told so; giving both an incoming link and an incoming processor always raises. (The documented 'without routing it to any processors' does not hold: refuted; nor does 'duplicates are ignored': refuted.)", "quantifier": "all collections of ids and all incoming link and processor values", "why_tests_cant": "All argument combinations.", "anchors": ["spinn_machine/routing_entry.py:RoutingEntry.__init__", "spinn_machine/routing_entry.py:RoutingEntry.defaultable"]}
{"id": "C41", "title": "Equality and hash are consistent", "statement": "For RoutingEntry, MulticastRoutingEntry, IgnoreChip, IgnoreCore, IgnoreLink, IPTag, FPGALinkData and SpinnakerLinkData, == is an equivalence relation and equal objects have equal hashes. Equal link data and down items agree in every field; equal routing entries with routable ids have the same destinations. (Not for unroutable ids, and equal IP tags may have different destinations: both refuted.)", "quantifier": "all pairs/triples of objects", "why_tests_cant": "All pairs of objects.", "anchors": ["spinn_machine/routing_entry.py:__hash__", "spinn_machine/multicast_routing_entry.py:__hash__", "spinn_machine/ignores", "spinn_machine/tags/iptag.py", "spinn_machine/link_data_objects"]}
{"id": "C42", "title": "CoreSubsets behaves as a set of cores", "statement": "After any sequence of creating CoreSubset, CoreSubsets and FrozenCoreSubsets objects, add_processor, add_core_subset, add_core_subsets, intersect and adding to subsets that collections hand out: is_core(x,y,p) iff (x,y,p) was added to the collection; is_chip(x,y) iff some core of the chip was added; len is the number of distinct cores; iteration yields one subset per chip in order of first addition with its cores in order of first addition; [x, y] gives that subset or KeyError; get_core_subset_for_chip gives that subset, or for a chip without cores a new empty one that belongs to no collection. No two collections share a subset object and calls on other objects never change a collection. A CoreSubset that a program makes holds the distinct cores it was made with and those later added to it by its own add_processor, whatever collections it is given to.", "quantifier": "all histories", "why_tests_cant": "Unbounded histories.", "anchors": ["spinn_machine/core_subsets.py:CoreSubsets", "spinn_machine/core_subset.py:CoreSubset"]}
{"id": "C43", "title": "intersect is set intersection", "statement": "a.intersect(b) contains exactly the cores in both, has no chip without a core, and leaves a and b unchanged.", "quantifier": "all pairs of CoreSubsets", "why_tests_cant": "All pairs.", "anchors": ["spinn_machine/core_subsets.py:CoreSubsets.intersect", "spinn_machine/core_subset.py:CoreSubset.intersect"]}
{"id": "C44", "title": "FrozenCoreSubsets cannot be changed", "statement": "A FrozenCoreSubsets contains exactly the cores given at creation; add_processor/add_core_subset/add_core_subsets always raise RuntimeError and change nothing; over any history of calls in which the subsets it hands out are not changed it keeps these cores. (Adding to a CoreSubset object handed out by it does change it: full immutability is refuted.)", "quantifier": "all contents and all sequences of calls", "why_tests_cant": "Unbounded call histories.", "anchors": ["spinn_machine/frozen_core_subsets.py:FrozenCoreSubsets"]}
{"id": "C45", "title": "Down-item strings are parsed faithfully", "statement": "For IgnoreChip, IgnoreCore and IgnoreLink, parsing the ':'-joined documented textual form of any list of items (coordinates, link or core/core range, optional ip) gives exactly the set of those items; 'None' in any case or a missing value gives the empty set; an item with the wrong number of fields raises ValueError.", "quantifier": "all lists of items, all integers, all ip strings without ',' and ':'", "why_tests_cant": "All strings and lists.", "anchors": ["spinn_machine/ignores/ignore_chip.py:parse_string", "spinn_machine/ignores/ignore_core.py:parse_string", "spinn_machine/ignores/ignore_link.py:parse_string"]}
{"id": "C46", "title": "Physical to virtual core conversion", "statement": "IgnoreCore.virtual_p is p itself when p>0, and for p<=0 the typical map applied to -p, a KeyError iff -p > 17; distinct physical ids give distinct virtual ids. The map should be onto the virtual ids 0..17 of an 18 core chip: it is not (18 is produced, 11 never).", "quantifier": "all integers p", "why_tests_cant": "All integers; the table defect is invisible to a spot check.", "anchors": ["spinn_machine/ignores/ignore_core.py:TYPICAL_PHYSICAL_VIRTUAL_MAP", "spinn_machine/ignores/ignore_core.py:virtual_p"]}
{"id": "C47", "title": "Router holds at most one link per id", "statement": "After any sequence of add_link calls on a router: get_link(i) is the first link added with id i, is_link(i) iff one was added, len is the number of distinct ids; adding a second link with the same id raises SpinnMachineAlreadyExistsException and changes nothing; get_neighbouring_chips_coords lists the destinations in order.", "quantifier": "all histories", "why_tests_cant": "Unbounded histories.", "anchors": ["spinn_machine/router.py:Router.add_link", "spinn_machine/router.py:Router.get_link", "spinn_machine/router.py:Router.get_neighbouring_chips_coords"]}
{"id": "C48", "title": "Chip tags and processors", "statement": "A chip created without tag ids has tags 1..7 iff it has an ip address and none otherwise; with tag ids it has exactly these without duplicates in order; is_processor_with_id(p) iff p is listed in all_processor_ids; n_processors = n_scamp + n_placable.", "quantifier": "all constructor arguments", "why_tests_cant": "All argument combinations.", "anchors": ["spinn_machine/chip.py:Chip"]}
{"id": "C49", "title": "Machine data view: a machine is only ever created on demand", "statement": "Over any history of view/writer calls, including calls made by machine generators and calls that raised: if a machine was set and no later clear_machine, reset, _setup, _mock or user request after a soft reset dropped it, get_machine returns it and makes none; otherwise it raises if there is no generator, and else runs the generator and returns the machine that then exists or raises. In mock mode that is the virtual machine of one board. get_chip_at is get_machine()[x, y]. has_machine, has_existing_machine, get_nearest_ethernet, where_is_xy, where_is_chip and get_user_accessed_machine never raise and never create or change anything; get_nearest_ethernet gives the chip's nearest Ethernet if the chip exists and otherwise its arguments; get_user_accessed_machine is true iff the user asked for the machine since the last reset. A generator that returns without having set a machine makes get_machine raise SpinnMachineException.", "quantifier": "all operation histories, all generators", "why_tests_cant": "Unbounded histories of a singleton.", "anchors": ["spinn_machine/data/machine_data_view.py:MachineDataView", "spinn_machine/data/machine_data_writer.py:MachineDataWriter"]}
{"id": "C50", "title": "Virtual-to-physical maps are exclusive", "statement": "Over any history: set_v_to_p_map works exactly if no map was set since the last hard reset, _setup or _mock and no version with quads is known; get_physical_core_id reads the map last set with Python indexing and raises exactly without a map, for an unknown chip or for an index out of range; get_physical_quad reads the quad map of the version; get_physical_string is the text of the one or the other, or empty, and never raises or changes anything. get_physical_core_id and get_physical_quad only both give values if since the last reset a call that read the version raised because of the clash (without that condition exclusivity is refuted: get_machine_version stores the quad map before it raises).", "quantifier": "all operation histories", "why_tests_cant": "Unbounded histories incl. exceptions in the middle.", "anchors": ["spinn_machine/data/machine_data_view.py:get_machine_version", "spinn_machine/data/machine_data_view.py:set_v_to_p_map", "spinn_machine/data/machine_data_view.py:get_physical_core_id", "spinn_machine/data/machine_data_view.py:get_physical_quad"]}
{"id": "C51", "title": "Monitor core counts", "statement": "Over any history, get_ethernet_monitor_cores = number of add_monitor_core calls and get_all_monitor_cores = number of those with all_chips since the last hard reset, _setup or _mock, hence 0 <= all <= ethernet, and no other call changes them.", "quantifier": "all histories", "why_tests_cant": "Unbounded histories.", "anchors": ["spinn_machine/data/machine_data_writer.py:add_monitor_core"]}
{"id": "C52", "title": "The machine version is fixed once read", "statement": "Over any history: once get_machine_version returned a version, every later call returns that version until _setup or _mock, whatever the configuration, the machine or the resets did in between; the first reading gives what version_factory gives for the configuration of that moment, or raises because a v_to_p map was set for a version with quads.", "quantifier": "all histories, all configurations at every call", "why_tests_cant": "Unbounded histories with the configuration changing at any point.", "anchors": ["spinn_machine/data/machine_data_view.py:get_machine_version", "spinn_machine/version/version_factory.py:version_factory"]}
{"id": "C53", "title": "The text of a routing entry identifies it", "statement": "For all routing entries, repr is equal exactly when the processor ids, the link ids and the defaultable flags are equal; for multicast routing entries also the key and the mask. For routes within the 24 hardware bits, equal text is the same as ==; an entry whose route has bits above 24 shows them in no way. The text of a multicast entry is its key and mask in eight upper case hexadecimal digits (more only if needed, the sign of a negative number counts as one), then its processors and its links, each once and in ascending order, and (defaultable) if it is.", "quantifier": "all pairs of entries, however built or decoded", "why_tests_cant": "Injectivity over all entries; a test can only compare some pairs.", "anchors": ["spinn_machine/routing_entry.py:__repr__", "spinn_machine/multicast_routing_entry.py:__repr__"]}
{"id": "C54", "title": "The text of links, routers, tags and core subsets identifies them", "statement": "Two links have the same str exactly when all their fields agree; two routers when their entry counts and links agree; two IP tags / reverse IP tags when they are the same tag (addresses without a comma); two CoreSubsets when they have the same chips in the same order. Two spinnaker links have the same str when their ids, chips and boards agree, whatever link of the chip they use: the id is printed in the place of the link.", "quantifier": "all pairs of objects", "why_tests_cant": "Injectivity over all values.", "anchors": ["spinn_machine/link.py:__str__", "spinn_machine/router.py:__str__", "spinn_machine/link_data_objects/spinnaker_link_data.py:__repr__", "spinn_machine/tags/iptag.py:__repr__", "spinn_machine/tags/reverse_iptag.py:__repr__", "spinn_machine/core_subsets.py:__repr__"]}
{"id": "C55", "title": "where_is says where a chip is", "statement": "On any machine of a supported size with a chip at (0,0), where_is_xy(x,y) says 'No chip' exactly for absent chips, and otherwise names local coordinates which, added to the chip's Ethernet chip, give (x,y) back, with the address of that Ethernet chip if it is present. Answers for different coordinates differ. On a virtual machine the text is the board and the local position of the published layout.", "quantifier": "all machines and coordinates", "why_tests_cant": "All machine sizes, kinds of wrapping and coordinates.", "anchors": ["spinn_machine/machine.py:where_is_chip", "spinn_machine/machine.py:where_is_xy"]}
{"id": "C56", "title": "The machine text and the summary count what is there", "statement": "The text of a machine shows its class, width, height and number of chips; the class says in which dimensions the machine wraps. summary_string shows the number of chips, the sum of the cores, half the sum of the links and the true least and greatest SDRAM, router entries, cores and links over the chips; it raises IndexError exactly for a machine with no chips, KeyError exactly when there are chips but none at (0,0), and nothing else.", "quantifier": "all machines built by any sequence of add_chip", "why_tests_cant": "The counters are kept incrementally; must agree with the chips after every history.", "anchors": ["spinn_machine/machine.py:summary_string", "spinn_machine/machine.py:__str__"]}
{"id": "C57", "title": "Idle energy is power times time", "statement": "For SpiNNaker 1 versions and all plausible counts and times, get_idle_energy returns the documented idle power (per chip, board, box and frame) times the time, up to one part in 10^14; it is monotone, as floats, in the time and in every count; it raises SpinnMachineException exactly for a version 3 board with frames or several boards, NotImplementedError for SpiNNaker 2, and nothing else.", "quantifier": "all times, frame, board and chip counts (up to 2^60 and 10^200)", "why_tests_cant": "Floating point accuracy and monotonicity over all inputs.", "anchors": ["spinn_machine/version/version_3.py:get_idle_energy", "spinn_machine/version/version_5.py:get_idle_energy", "spinn_machine/version/version_spin2.py:get_idle_energy"]}
{"id": "C58", "title": "Active energy adds up", "statement": "For all recorded packets and active times, get_active_energy is the frame and idle power times the time plus 25 pJ for each bit of each packet plus 0.034 J for each active second, up to a relative error of 10^-15 for each entry; it is at least the idle energy, monotone in every input, ignores the number of cores, and raises KeyError exactly when a packet type is not one of get_router_report_packet_types.", "quantifier": "all dictionaries of packets and active times of any size", "why_tests_cant": "Accumulated rounding over unbounded dictionaries; all inputs.", "anchors": ["spinn_machine/version/version_spin1.py:_get_router_active_energy", "spinn_machine/version/version_spin1.py:_get_core_active_energy", "spinn_machine/version/version_3.py:get_active_energy", "spinn_machine/version/version_5.py:get_active_energy"]}
{"id": "C59", "title": "Versions as values", "statement": "Version objects are equal exactly when their numbers (and names) are equal, whatever limits the configuration gave them; equality is an equivalence and equal versions describe the same board. No version object can be hashed, although the base class defines a hash.", "quantifier": "all version objects, all configurations", "why_tests_cant": "All configurations; the missing hash is only visible to code that uses a version as a key.", "anchors": ["spinn_machine/version/version_5.py:__eq__", "spinn_machine/version/abstract_version.py:__hash__"]}
{"id": "C60", "title": "Which JSON descriptions are read", "statement": "machine_from_json reads a description exactly if it gives a size the version supports, both kinds of resources, and a list of well formed chip items at different places; numbers may be JSON integers, truth values or decimal texts, and the number of monitors and the dead links also floats of the same value (1.0 monitors). The machine then has exactly the described chips: own exceptions before the resources of the kind, the kind decided by ipAddress, and the links that are not listed as dead. Every other description is refused with KeyError, IndexError, ValueError, NotImplementedError or a SpinnMachineException, and an item never describes two different chips.", "quantifier": "all JSON values, all versions", "why_tests_cant": "The set of descriptions is infinite; the claim is an equivalence, so it also excludes all descriptions that are read by accident.", "anchors": ["spinn_machine/json_machine.py:machine_from_json", "spinn_machine/json_machine.py:_int", "spinn_machine/json_machine.py:_obj"]}
{"id": "C61", "title": "The data of a version describes its board", "statement": "For every version: chip_core_map has exactly the positions of the board (2x2, 1x1 or the 48 chip hexagon), once each, with the known number of cores, which is between the minimum expected and the maximum; expected_xys, n_chips_per_board and board_shape agree with it (the shape is the bounding box); the limits, router entries and clock speeds (in MHz, not in Hz as documented) are those of the hardware; every SpiNNaker link is a link of a chip of the board that leads off the board.", "quantifier": "all versions, all positions", "why_tests_cant": "The claim is about every position including those that must not be there, and the other theorems rest on this data.", "anchors": ["spinn_machine/version/version_5.py:CHIPS_PER_BOARD", "spinn_machine/version/version_248.py:CHIPS_PER_BOARD", "spinn_machine/version/abstract_version.py:AbstractVersion"]}
{"id": "C62", "title": "Links added to a router later", "statement": "Over any history of add_chip on a machine and add_link on the routers of its chips: add_link raises iff that chip has a link with that id already; afterwards is_link_at and the chips, also those of ethernet_connected_chips, show the link, nothing else changes, and the machine answers as if its chips had been added as they are now, except that get_links_count misses exactly the links added later (so 'the count of links in the machine' is refuted).", "quantifier": "all histories of both calls", "why_tests_cant": "Object sharing between the machine, its Ethernet list and the routers over all histories.", "anchors": ["spinn_machine/router.py:Router.add_link", "spinn_machine/machine.py:Machine.add_chip", "spinn_machine/machine.py:Machine.get_links_count", "spinn_machine/chip.py:Chip.router"]}
{"id": "C63", "title": "What to_json writes", "statement": "to_json writes exactly the size, the corner (0, 0), the resources of the boot chip and of the first chip without an address (of the boot chip if it is the only one), and for every chip, in the order of the machine, its place, number of cores, nearest Ethernet chip, its address if it has one, its dead links in order if it has any, and exactly those resources in which it differs from its kind; router entries are cut off at the largest Java int. It raises KeyError iff there is no chip at (0, 0) and ValueError iff there are several chips that all have an address.", "quantifier": "all machines", "why_tests_cant": "Other programs (in Java) read the description; the claim is about every machine and about what is not written too.", "anchors": ["spinn_machine/json_machine.py:to_json", "spinn_machine/json_machine.py:_describe_chip", "spinn_machine/json_machine.py:_int_value"]}
{"id": "C64", "title": "get_vector_length against the links that really exist", "statement": "On every virtual machine, whatever is down, no way over the links that the routers really have is shorter than get_vector_length says. If no chip and no link is down and the machine is of one board or wraps in both dimensions, there is a way of exactly that many links between any two of its chips, so get_vector_length is the real distance. (For several boards that do not wrap in both dimensions this is false: on 28 by 16 the chips (11, 15) and (20, 15) are said to be 9 links apart, and are at least 10.)", "quantifier": "all configurations, versions, sizes, pairs of chips, and walks of any length", "why_tests_cant": "The number of walks grows without bound with their length and with the size of the machine.", "anchors": ["spinn_machine/machine.py:get_vector_length", "spinn_machine/full_wrap_machine.py:get_vector_length", "spinn_machine/no_wrap_machine.py:get_vector_length", "spinn_machine/virtual_machine.py:_VirtualMachine"]}
{"id": "C65", "title": "A machine without dead chips or links is in one piece", "statement": "In a virtual machine with no chip and no link down, of any version and any size that is accepted, every chip can be reached from every chip over the links that the routers have, on chips that exist. (With chips down this can fail, and the machine is built and passes validate all the same.)", "quantifier": "all configurations without down chips and links, versions, sizes, and pairs of chips", "why_tests_cant": "There are infinitely many sizes, and reachability is about paths of any length.", "anchors": ["spinn_machine/virtual_machine.py:_VirtualMachine", "spinn_machine/version/version_48_chips.py:get_potential_ethernet_chips", "spinn_machine/machine.py:get_xys_by_ethernet"]}
{"id": "C66", "title": "Order and repetition of down items do not matter", "statement": "If the down_chips, down_cores and down_links texts of two configurations list the same items, in any order and any number of times, then a virtual machine can be made from the one iff it can be made from the other, and the machines are equal in every field (chips, their order, cores, links, Ethernet chips, SpiNNaker and FPGA links). No other setting of the configuration has an effect once the version is known. More generally only the sets of items that the texts stand for matter.", "quantifier": "all pairs of configurations, versions, sizes, with and without validation", "why_tests_cant": "The items go through Python sets; there are infinitely many texts with the same items.", "anchors": ["spinn_machine/virtual_machine.py:_VirtualMachine", "spinn_machine/ignores/ignore_chip.py:parse_string", "spinn_machine/ignores/ignore_core.py:parse_string", "spinn_machine/ignores/ignore_link.py:parse_string"]}
{"id": "C67", "title": "More down items, less machine", "statement": "If everything that is down in one configuration is down in another, then each chip of the machine of the second is on the machine of the first, at the same place with the same nearest Ethernet chip, address, tag ids, SDRAM and router entries, and its cores and links are among those of the first; the numbers of chips, cores, user cores and links are no larger. (Whether the machine passes validation is not monotone: a chip whose Ethernet chip is down is refused, unless it is down too.) The same holds for the repaired machines.", "quantifier": "all pairs of configurations, versions and sizes", "why_tests_cant": "It compares all pairs of sets of faults.", "anchors": ["spinn_machine/virtual_machine.py:_VirtualMachine", "spinn_machine/virtual_machine.py:_create_chip", "spinn_machine/virtual_machine.py:_calculate_links"]}
{"id": "C68", "title": "The order of adding chips does not matter", "statement": "Chips can be added to a machine in any order, one by one or several at a time, with SpiNNaker and FPGA links added in between: whether an exception is raised depends only on whether two of the chips are at the same place, and if none is raised, all look-ups, chips of a board, counts, the boot chip and its address, the verdict of validate, get_unused_xy and the reports are the same, and the lists (coordinates, Ethernet chips, unreachable chips, one way links) differ in their order only.", "quantifier": "all pairs of histories that add the same chips", "why_tests_cant": "The number of orders is factorial in the number of chips.", "anchors": ["spinn_machine/machine.py:add_chip", "spinn_machine/machine.py:add_chips", "spinn_machine/machine.py:validate", "spinn_machine/machine.py:one_way_links", "spinn_machine/machine.py:get_unused_xy"]}
{"id": "C69", "title": "Ways over the links can be gone back, and repair makes it so", "statement": "On a virtual machine that reports no one way links, whatever is down, whenever a chip can be reached from another over n links the way back also takes n links. machine_repair makes this true: on its result every way can be gone back in the same number of links, is a way of the machine before the repair, and is never shorter than get_vector_length says. Without repair it can fail, since down_links takes out one direction only.", "quantifier": "all versions, sizes, down items and repair settings, and all ways of any length", "why_tests_cant": "There are unboundedly many ways over the links of unboundedly many machines.", "anchors": ["spinn_machine/virtual_machine.py:virtual_machine_by_boards", "spinn_machine/machine.py:one_way_links", "spinn_machine/machine_factory.py:machine_repair"]}
{"id": "C70", "title": "The quads of Spin2 cores are those of the manufacturer's file", "statement": "For the versions 201 and 248, every core id but 0 has its quad coordinates given by exactly one kind of line of vec2mesh.txt: id_to_qx_qy_qp(id) is (x, y, p) only if the file has the line 'core_id: id => QPE (x,y) PE p', and every line that is not a comment is the line of such a core. The script vec2mesh_reader reads the file without raising and prints the mapping of the versions, without core 0.", "quantifier": "all integers as core ids, all lines of the file", "why_tests_cant": "A test compares chosen ids; the claim covers every id that has coordinates, every line, and excludes ids that no line names.", "anchors": ["spinn_machine/version/version_spin2.py:QUAD_MAP", "spinn_machine/version/version_spin2.py:id_to_qx_qy_qp", "spinn_machine/version/vec2mesh_reader.py", "spinn_machine/version/vec2mesh.txt"]}
{"id": "C71", "title": "The FPGA links are the wiring between the boards", "statement": "On every valid virtual machine of SpiNN-5 boards, a link between two chips leads to a different board (another nearest Ethernet chip) exactly when get_fpga_link_with_id reports it as an FPGA link of the board of the first chip. The link of the chip at the other end in the opposite direction is then reported too, under the address of that chip's board: link n of FPGA f is link 15-n of FPGA f+1 (links 0-7) or f+2 (links 8-15) modulo 3, and which of the six neighbouring boards it is depends on f and on n<8 only.", "quantifier": "all sizes, down chips, cores and links of valid SpiNN-5 virtual machines, all chips and links", "why_tests_cant": "Tests look at a few links of single boards; the claim relates the FPGA table, the wrap-around geometry and the layout of boards for every size.", "anchors": ["spinn_machine/version/version_5.py:fpga_links", "spinn_machine/machine.py:get_fpga_link_with_id", "spinn_machine/machine.py:add_fpga_links", "spinn_machine/virtual_machine.py:_VirtualMachine"]}
{"id": "C72", "title": "How far a chip is from its nearest Ethernet chip", "statement": "On every virtual machine of 48 chip boards, get_vector_length from the chip at nearest_ethernet_x/y to a chip with board position (lx,ly) (get_local_xy) is max(lx,ly), or the shorter way round max(width-lx,height-ly) when the machine wraps in both dimensions; so never more than 7 (1 on a 4 chip board, 0 on a 1 chip board). It is the Ethernet chip of the chip's own board and not, as the name says, the nearest: the Ethernet chip of another board can be 3 hops nearer.", "quantifier": "all sizes, down items and chips of virtual machines", "why_tests_cant": "All sizes, wrap kinds and chips; the wrap-around shortcut only shows on 12 x 12.", "anchors": ["spinn_machine/chip.py:nearest_ethernet_x", "spinn_machine/virtual_machine.py:_VirtualMachine", "spinn_machine/full_wrap_machine.py:get_vector_length", "spinn_machine/full_wrap_machine.py:get_local_xy"]}
{"id": "C73", "title": "How many boards, chips, cores and links a virtual machine has", "statement": "A w x h machine of 48 chip boards has 3ab + a*higher + b*wider + wider*higher boards, with a=w//12, b=h//12, wider/higher = 1 when w/h leaves 8 chips over. n_chips plus the number of distinct down chips that lie on a board is n_chips_per_board times the boards. Without down chips and cores total_cores is the boards times the sum over the board of max(1, min(cores of the position, max_cores_per_chip)), and total_available_user_cores is total_cores - n_chips. Without down chips and links get_links_count is 120 per board plus 8 for each pair of boards that are side by side (counted per side); when both dimensions wrap it is 3*w*h and n_chips is w*h. The 4 chip board has 8 links, the single chip none.", "quantifier": "all supported sizes of all versions, all core limits, all down chips", "why_tests_cant": "Infinitely many sizes with different shapes; tests look at a few sizes.", "anchors": ["spinn_machine/virtual_machine.py:_VirtualMachine", "spinn_machine/machine.py:Machine.n_chips", "spinn_machine/machine.py:Machine.total_cores", "spinn_machine/machine.py:Machine.total_available_user_cores", "spinn_machine/machine.py:Machine.get_links_count"]}
{"id": "C74", "title": "Faults with a way round them do not cut a machine", "statement": "Whatever chips, cores and links are down: when each place of a board without a chip has all its six neighbours there, and any two chips next to each other are joined by their link or by a detour of two links over a neighbour beside it, then there is a way along the links from every chip of the virtual machine to every other. In particular on a machine of 48 chip boards that wraps both ways any number of chips can be down: when no two of them are next to each other and no links are down, the machine hangs together.", "quantifier": "all versions, supported sizes and down chips, cores and links; all pairs of chips of the machine", "why_tests_cant": "Infinitely many sizes and fault patterns; the way found is unbounded in length.", "anchors": ["spinn_machine/virtual_machine.py:_VirtualMachine", "spinn_machine/machine.py:Machine.xy_over_link", "spinn_machine/router.py:Router.get_link"]}
{"id": "C75", "title": "machine_repair calls itself at most three times", "statement": "On every virtual machine, whatever is down, and on every machine of a supported size whose chips are inside it, whose links lead where their ids say and whose chips record no parents, machine_repair makes at most three new machines: it is called at most four times in all, whatever the size (so the recursion depth does not grow with the machine). With repair_machine off it is called at most twice, on any machine. The number 4 is reached. With recorded parents there is no such bound: for every k there is a valid version 5 machine of width 12 k + 4 and height 16, with straight links, on which machine_repair is called 12 k + 1 times, so a long enough machine reaches any recursion limit.", "quantifier": "all versions, sizes, down items and removed_chips; all machines with straight links and no parents", "why_tests_cant": "The recursion depth has to be bounded for infinitely many machines; tests repair a few small ones.", "anchors": ["spinn_machine/machine_factory.py:machine_repair", "spinn_machine/machine_factory.py:_machine_ignore"]}
{"id": "C76", "title": "What machine_repair leaves of a machine", "statement": "Of a virtual machine, whatever is down (and of any machine of a supported size with straight links and no recorded parents), when machine_repair returns: a chip is left exactly if it had a link in both directions with a chip of its own board right next to it, and a link is left exactly if its reverse was there and the chips at both its ends are left. So the result can be read off the machine before the repair, and does not depend on the order or number of the rounds.", "quantifier": "all versions, sizes, down items, removed_chips, both settings of repair_machine; all chips and links", "why_tests_cant": "The repair is an iteration to a fixed point; its result has to be characterised for all fault patterns.", "anchors": ["spinn_machine/machine_factory.py:machine_repair", "spinn_machine/machine.py:Machine.one_way_links", "spinn_machine/machine.py:Machine.unreachable_incoming_local_chips", "spinn_machine/machine.py:Machine.unreachable_outgoing_local_chips"]}
{"id": "C77", "title": "When machine_repair gives up", "statement": "With repair_machine on, on every virtual machine that passed its checks, whatever is down (and on every valid machine of a supported size with straight links, no recorded parents and whose Ethernet chips are their own Ethernet chip): machine_repair returns a machine exactly if chip (0, 0) and the Ethernet chip of each chip that survives also survive, both in the first round (chips that have a link to, and a link from, a chip of their board next to them) and for good (chips that have a link both ways with such a chip). Otherwise it raises SpinnMachineException; it never fails in another way.", "quantifier": "all versions, sizes, down items and removed_chips", "why_tests_cant": "Whether an iteration to a fixed point gives up on the way has to be told for all fault patterns of infinitely many machines.", "anchors": ["spinn_machine/machine_factory.py:machine_repair", "spinn_machine/machine_factory.py:_machine_ignore", "spinn_machine/machine.py:Machine.validate"]}
{"id": "C78", "title": "The exception of machine_repair tells every defect", "statement": "With repair_machine off, the text of the exception that machine_repair raises is made of one message for each defect of the machine, and none else: each chip without a link from (or to) a chip of its board next to it, each link that cannot be gone back and does not lead to a removed chip, each chip whose parent is missing. It is raised exactly if there is a defect; without one the option makes no difference. Messages name local coordinates and the board, or both chips and the link, so that different defects have different messages, and on a virtual machine say \"the same board\" exactly if that is so. (Not so for missing parents: the message has the class Chip in place of the chip, so two chips that miss the same parent have the same message.)", "quantifier": "all machines made by any sequence of calls, whose chips have their Ethernet chip on the machine; all removed_chips", "why_tests_cant": "The text has to be complete and unambiguous for every combination of defects.", "anchors": ["spinn_machine/machine_factory.py:machine_repair", "spinn_machine/machine_factory.py:_generate_uni_direction_link_error", "spinn_machine/chip.py:Chip.__str__"]}
{"id": "C79", "title": "validate names the first chip that is wrong, and why", "statement": "The exception that Machine.validate raises is about chip (0, 0) without an address, about a second board where only one can be, or about a chip. In the last case it names the first chip, in the order in which they were added, that is not well formed (all earlier ones are), says where it is, and says something that is wrong with it. Texts about different chips of a machine, or about different things wrong with one chip, are different. A virtual machine is only rejected for what its configuration takes away: chip (0, 0), too many cores of a chip, or the Ethernet chip of a board that has other chips left.", "quantifier": "all machines made by any sequence of calls, all versions; all virtual machines", "why_tests_cant": "There are infinitely many machines with several faults each; the text has to be true of the right chip of each.", "anchors": ["spinn_machine/machine.py:Machine.validate", "spinn_machine/machine.py:Machine.where_is_chip", "spinn_machine/version/version_48_chips.py:Version48Chips.illegal_ethernet_message", "spinn_machine/version/version_3.py:Version3.illegal_ethernet_message"]}
{"id": "C80", "title": "What machine_repair leaves is what a virtual machine with more down items has", "statement": "Build a virtual machine, repair it, and write down every chip that is missing from the result and every link its chips lack, as down_chips and down_links of a configuration with the same down cores. The virtual machine of that configuration is the repaired machine: the same chips in the same order with the same values, the same Ethernet chips, SpiNNaker and FPGA links, and counters; only its origin is Virtual. It exists whenever the repair succeeded, machine_repair has nothing to do on it, and the same holds for a machine that was not repaired. Such a configuration can always be written as text.", "quantifier": "all configurations, versions, sizes, histories of a repair with or without repair_machine, all texts of down items with the same meaning", "why_tests_cant": "It relates two whole constructions (build and repair; build from items) over all sets of down chips, cores and links.", "anchors": ["spinn_machine/virtual_machine.py:_VirtualMachine", "spinn_machine/machine_factory.py:machine_repair", "spinn_machine/machine_factory.py:_machine_ignore", "spinn_machine/ignores/ignore_chip.py:IgnoreChip.parse_string", "spinn_machine/ignores/ignore_link.py:IgnoreLink.parse_string"]}
{"id": "C81", "title": "How far apart chips are: the nearest copy, wrapping and the largest distance", "statement": "get_vector_length between two coordinates is the length on an unwrapped machine to the nearest of the copies of the destination that lie whole machine widths (where x wraps) and heights (where y wraps) away. So a machine that wraps in more dimensions never reports a longer length for the same size. The largest length between two coordinates inside the machine is w+h-2 without wraps, max(h-1,(w+h-1)/2) with horizontal wraps, max(w-1,(w+h-1)/2) with vertical wraps and max(w/2,h/2,(w+h)/3) with both (rounded down), and it is attained. On a virtual triad machine without down chips and links (both sizes multiples of 12) every two chips are joined by at most that many links and some two by no fewer.", "quantifier": "all four machine kinds, all positive widths and heights, all pairs of coordinates; all full-wrap virtual machines without down chips and links", "why_tests_cant": "A bound on the worst pair over all sizes and all pairs, and a comparison between kinds, quantifies over unbounded sizes.", "anchors": ["spinn_machine/machine.py:Machine.get_vector_length", "spinn_machine/full_wrap_machine.py:FullWrapMachine.get_vector_length", "spinn_machine/horizontal_wrap_machine.py:HorizontalWrapMachine.get_vector_length", "spinn_machine/vertical_wrap_machine.py:VerticalWrapMachine.get_vector_length"]}
{"id": "C82", "title": "Defaultable routing entries carry a packet straight on", "statement": "A packet that leaves a chip over a link and is then passed on only by routing entries that were made for the link it came in by and are defaultable always goes on over the same link: each such entry has exactly that link. Every straight way can be carried by such entries. A straight way of at most half the width and half the height (where they wrap) is a shortest one, its length being get_vector_length. It comes back to its start exactly when the number of steps is a multiple of the width (for links that change x) and of the height (for links that change y), and never in a dimension that does not wrap.", "quantifier": "all kinds and sizes of machine, all chips, the six links, all numbers of steps, all entries", "why_tests_cant": "Induction on the unbounded number of hops over all entries and all sizes.", "anchors": ["spinn_machine/routing_entry.py:RoutingEntry", "spinn_machine/router.py:Router.opposite", "spinn_machine/machine.py:Machine.xy_over_link", "spinn_machine/machine.py:Machine.get_vector_length"]}
{"id": "C83", "title": "machine_repair looks at the layout only; JSON and repair commute", "statement": "What machine_repair decides depends only on the class and size of the machine and, chip by chip, on the position, the links (not their order), the nearest Ethernet chip, the IP address, the parent and whether the chip has the least number of cores the version expects; not on which cores, the memory, the tags, the router entries, the origin, the counters or the SpiNNaker and FPGA links recorded. Two machines alike in this raise the same exception or give machines alike in this (both the originals or both new, with the same SpiNNaker links, FPGA links and boot address), each chip keeping its own resources. So for a machine of which JSON can say the links (every virtual machine, whatever is down) it makes no difference whether it is repaired before to_json or after machine_from_json: the same exception, or results that to_json writes the same; and reading back the repaired one gives the machine repaired after reading, but for the origin.", "quantifier": "all versions, pairs of machines made by any history and alike, all removed lists, repair_machine on or off; all configurations of virtual machines", "why_tests_cant": "A statement about pairs of machines and the whole recursion of the repair; tests compare a few machines with themselves.", "anchors": ["spinn_machine/machine_factory.py:machine_repair", "spinn_machine/machine_factory.py:_machine_ignore", "spinn_machine/json_machine.py:to_json", "spinn_machine/json_machine.py:machine_from_json"]}
{"id": "C84", "title": "The repaired machine shares the chips that kept their links with the original", "statement": "machine_repair does not change any machine that exists: the original looks after the call as before. A chip of the result is the same Chip object as the one at that position of the original exactly when it kept all its links through all rounds of the repair; otherwise it is a new object, with a new Router. So a link added later with machine[x, y].router.add_link(link) through either machine appears on the other exactly when that chip kept all its links, and then only its counters do not know; that the repaired machine is an independent copy is refuted.", "quantifier": "all versions, all machines made by any history with chip objects of their own, all removed lists, repair_machine on or off, any number of rounds, all positions and links added later", "why_tests_cant": "About the identity of objects over all machines and any number of rounds of the repair; tests look at values of a few machines.", "anchors": ["spinn_machine/machine_factory.py:_machine_ignore", "spinn_machine/machine_factory.py:machine_repair", "spinn_machine/machine.py:add_chip", "spinn_machine/router.py:Router.add_link"]}
{"id": "C85", "title": "The texts of the configuration say exactly what a virtual machine lacks", "statement": "End to end from the texts down_chips, down_cores and down_links of the configuration to the machine: a text says one thing however it is taken apart into items (spaces, signs, repeated items and upper case None included); a virtual machine (without validation) is made exactly if the size is supported and each text is None or items joined by colons, with no physical core beyond 17 on chips named without address; and the machine has exactly the chips, the cores (by positive id, by negated physical id, by ranges, by quad coordinates on SpiNNaker 2) and the links that its boards have and the texts do not name, items with an address being ignored.", "quantifier": "all configurations (any strings), all versions, sizes and limits, all chips, cores and links", "why_tests_cant": "All strings times all sizes; tests read a few strings and look at a few chips.", "anchors": ["spinn_machine/virtual_machine.py:_VirtualMachine", "spinn_machine/ignores/ignore_chip.py:IgnoreChip.parse_string", "spinn_machine/ignores/ignore_core.py:IgnoreCore.parse_string", "spinn_machine/ignores/ignore_link.py:IgnoreLink.parse_string", "spinn_machine/version/abstract_version.py:parse_cores_string"]}
{"id": "C86", "title": "The JSON file of a machine, as text, is read back", "statement": "to_json_path writes the file exactly if to_json raises nothing, changes no other file, and writes one line of printable ASCII whatever characters the addresses have; the text is a JSON document of the value of to_json. Reading follows the grammar of JSON exactly (white space, escapes of either form, minus signs, no leading zeros, repeated keys, fractions and exponents, NaN and the infinities; a decimal fraction is the double nearest to it, of two equally near ones the even one): what a file says counts and not how it is laid out, so machine_from_json of the path gives the machine that machine_from_json gives for that value. A missing file raises FileNotFoundError; a text that is no JSON object raises ValueError, whenever it has no escape of a character above 255 in it. A virtual machine with no core down, written to a file and read from it, is the same machine but for its origin.", "quantifier": "all machines, paths, files, and all texts (without characters beyond 255)", "why_tests_cant": "All texts and all machines; tests write and read a handful of files.", "anchors": ["spinn_machine/json_machine.py:to_json_path", "spinn_machine/json_machine.py:machine_from_json", "spinn_machine/json_machine.py:to_json"]}
{"id": "C87", "title": "The data view holds the machine itself, not a copy", "statement": "get_machine gives the very Machine object last given to set_machine (or made by the generator) and not dropped since by clear_machine, a reset, or the user asking after a soft reset; it gives it as it is now, whatever the program did to the object in the meantime, and get_chip_at looks into it as it is now. No call of the view or the writer changes a Machine or a map of physical ids: they are as the program made and changed them. A history with changes of machine objects gives the same results as the history in which every change of the held machine is a set_machine of the changed machine and the other changes are left out, so C49-C52 hold for it. The same fails for changes of the map given to set_v_to_p_map: an empty map is let in beside quads and can be filled later, so that physical ids and quads are both there with no call having raised.", "quantifier": "all histories of calls of the view, the writer and on the objects, including those made inside generators, and all configurations at each call", "why_tests_cant": "All interleavings of changes of shared objects with calls of the singleton.", "anchors": ["spinn_machine/data/machine_data_view.py:MachineDataView.get_machine", "spinn_machine/data/machine_data_view.py:MachineDataView.get_chip_at", "spinn_machine/data/machine_data_view.py:MachineDataView.set_v_to_p_map", "spinn_machine/data/machine_data_writer.py:MachineDataWriter.set_machine"]}
{"id": "C88", "title": "version_factory says why it refuses a configuration", "statement": "version_factory raises a SpinnMachineException with text t exactly when t describes the first of the things that are wrong with the configuration, in a fixed order (version with versions, unknown group, two ways to say which machine, one of width and height alone, unknown number, size wrong for the version, size wrong for a server, version wrong for a server, nothing given, size that is of another version); it returns a version exactly when nothing is wrong. The text names the settings with their values. verify_size says which of width and height is wrong and how. That the constructor of a version names the missing one of width and height is false: the two texts are swapped; version_factory never lets it come to that text.", "quantifier": "all configurations, all versions of Python, all widths and heights", "why_tests_cant": "All combinations of eight settings and all sizes; which of several faults is told.", "anchors": ["spinn_machine/version/version_factory.py:version_factory", "spinn_machine/version/version_factory.py:_get_cfg_version", "spinn_machine/version/version_factory.py:_get_url_version", "spinn_machine/version/version_factory.py:_get_size_version", "spinn_machine/version/version_factory.py:_number_to_version", "spinn_machine/version/version_factory.py:raise_version_error", "spinn_machine/version/abstract_version.py:AbstractVersion.verify_size"]}
{"id": "C89", "title": "What version_factory logs", "statement": "When version_factory returns, it has logged: a warning if no version is given; then, once for each of version(s), server and size that are given, what the limits of the configuration do (a limit above that of the version is ignored and so told, one below is told as a reduction, an equal one not at all), with another warning before that if only the size is given. The warning about cores tells the number of cores that the version then has; that the warning about SDRAM does so is false: it tells the SDRAM of the version before the reduction.", "quantifier": "all configurations that version_factory accepts, all versions of Python, all limits", "why_tests_cant": "All combinations of settings and all limits.", "anchors": ["spinn_machine/version/version_factory.py:version_factory", "spinn_machine/version/abstract_version.py:AbstractVersion.__set_max_cores_per_chip", "spinn_machine/version/abstract_version.py:AbstractVersion.__set_max_sdram_per_chip"]}
{"id": "C90", "title": "What summary_string logs", "statement": "summary_string logs nothing for a machine without chips. Otherwise it logs at most one line about SDRAM and then at most one about router entries: none if all chips have the expected number, that the number was different to the expected if all chips have one other number, and else that not all chips have the same, with every number that occurs and how many chips have it, the most frequent first and equally frequent ones in the order in which they were first added. Machines with the same tallies log the same.", "quantifier": "all machines built by any history of the API, all expected values", "why_tests_cant": "All machines, in particular all distributions of SDRAM and router entries over the chips.", "anchors": ["spinn_machine/machine.py:Machine.summary_string"]}
{"id": "C91", "title": "The parsers of down items say what is wrong with the first wrong item", "statement": "Parsing down_chips, down_cores or down_links raises an exception of class e with text t exactly when e and t describe the fault of the first item that has one: too few or too many parts ('Unexpected downed_chip/core/link: item'), a part that is not an integer (the text of int() with the first 200 characters of the repr of the part), cores that do not represent cores for the board (ConfigException naming the text and the version), a quad with an unknown q,x,y (KeyError). The cores of an item are looked at before its coordinates; an empty range of cores leaves the coordinates unchecked. An item has a fault exactly if it is not a text of a chip, link or cores.", "quantifier": "all texts, all versions", "why_tests_cant": "All strings as settings.", "anchors": ["spinn_machine/ignores/ignore_chip.py:IgnoreChip.parse_string", "spinn_machine/ignores/ignore_core.py:IgnoreCore.parse_string", "spinn_machine/ignores/ignore_link.py:IgnoreLink.parse_string", "spinn_machine/version/abstract_version.py:AbstractVersion.parse_cores_string"]}
{"id": "C92", "title": "Failed link lookups say what is missing", "statement": "get_spinnaker_link_with_id and get_fpga_link_with_id with chip coordinates that fail raise a KeyError that says that there is no chip at the coordinates if there is none, and else that the link is not found on the chip; without coordinates it says that the link does not exist on the board, which is the one given or else that of the chip at 0, 0. A warning that the board address is ignored is logged exactly if both a board address and coordinates are given.", "quantifier": "all machines built by any history of the API, all ids, addresses and coordinates", "why_tests_cant": "All machines and all arguments.", "anchors": ["spinn_machine/machine.py:Machine.get_spinnaker_link_with_id", "spinn_machine/machine.py:Machine.get_fpga_link_with_id"]}
{"id": "C93", "title": "Exceptions about duplicates and invalid values name the first at fault", "statement": "Creating a router with links raises SpinnMachineAlreadyExistsException exactly if two have the same source link id, and its item and value are 'link' and the first id that comes again. Machine.add_chips raises it exactly if coordinates come again, naming the first that do. MulticastRoutingEntry raises SpinnMachineInvalidParameterException exactly if the key has a bit that the mask lacks, with both in decimal. merge raises it exactly for another key or, with the same key, another mask, naming the number of the other entry and that of the entry itself in lower case hexadecimal (of a negative number, the minus comes before the 0x of the first and after the 0x of the second).", "quantifier": "all lists of links, all machines built by the API and all lists of chips, all keys and masks, all pairs of entries", "why_tests_cant": "All lists and numbers.", "anchors": ["spinn_machine/router.py:Router.__init__", "spinn_machine/router.py:Router.add_link", "spinn_machine/machine.py:Machine.add_chip", "spinn_machine/machine.py:Machine.add_chips", "spinn_machine/multicast_routing_entry.py:MulticastRoutingEntry.__init__", "spinn_machine/multicast_routing_entry.py:MulticastRoutingEntry.merge", "spinn_machine/exceptions.py:SpinnMachineAlreadyExistsException", "spinn_machine/exceptions.py:SpinnMachineInvalidParameterException"]}
{"id": "C94", "title": "machine_from_json tells the first thing that is wrong with a description", "statement": "machine_from_json raises an exception of class e with text t exactly when e and t describe the first violated demand on the description, in this order: width and height (present, integers, a size of the version), standardResources and then ethernetResources (present, an object, with monitors, routerEntries, sdram and tags of their kinds), chips (present, an array), and for each item of chips in turn: an array with at least three items of which the third is an object, integer coordinates, ethernet (present, an array of two), a string as ipAddress, its exceptions, exactly 1 monitor, an array as deadLinks, cores, the coordinates in ethernet, the tags in order, and a place that no earlier item has. A missing key is a KeyError with the quoted key, a short item an IndexError, a value of the wrong kind a ValueError that names the kind and the class of the value, a text that is no number that of int(). A machine is returned exactly if no demand is violated.", "quantifier": "all descriptions (objects as json.load makes them), all versions", "why_tests_cant": "All descriptions, with any number of faults anywhere.", "anchors": ["spinn_machine/json_machine.py:machine_from_json", "spinn_machine/json_machine.py:_int", "spinn_machine/json_machine.py:_str", "spinn_machine/json_machine.py:_ary", "spinn_machine/json_machine.py:_obj"]}
{"id": "C95", "title": "The texts that exceptions quote are Python literals that can be read back", "statement": "Where the text of an exception quotes a setting, a key or a part of an item ({value=} of the version factory, the KeyErrors of machine_from_json, int()), it is the Python literal of the text: between single quotes, or double quotes if the text has a single and no double quote; the quote and the backslash escaped by a backslash, tab, newline and return as \\t, \\n and \\r, other invisible characters as \\x and two lower case hexadecimal digits, and all others as they are. Different texts have different literals.", "quantifier": "all texts of Latin-1 characters", "why_tests_cant": "All texts.", "anchors": ["spinn_machine/version/version_factory.py:_get_cfg_version", "spinn_machine/version/version_factory.py:version_factory", "spinn_machine/json_machine.py:machine_from_json", "spinn_machine/ignores/ignore_chip.py:IgnoreChip.parse_single_string"]}
{"id": "C96", "title": "Exceptions of routing entries and routes say which argument is wrong", "statement": "convert_routing_table_entry_to_spinnaker_route raises exactly if a processor id is not in 0..17 or a link id not in 0..5. The text of the SpinnMachineInvalidParameterException names route.processor_ids if a processor id is wrong, else route.link_ids, lists the whole set as CPython lists it (all its members, once each) and gives the range. RoutingEntry raises: an AssertionError without text exactly if the arguments do not go together (ids missing or a defaultable given without a route; ids or an incoming link or processor given with a route); else a ValueError 'negative shift count' exactly if a processor id is below -6 or a link id is negative; else, exactly if both an incoming link and an incoming processor are given, a SpinnMachineInvalidParameterException that names the incoming processor. None of this depends on the order in which sets are listed.", "quantifier": "all entries, all arguments, all orders of listing sets", "why_tests_cant": "All ids; the order of a set depends on the hash table of the interpreter.", "anchors": ["spinn_machine/router.py:Router.convert_routing_table_entry_to_spinnaker_route", "spinn_machine/routing_entry.py:RoutingEntry.__init__", "spinn_machine/routing_entry.py:RoutingEntry._calc_spinnaker_route", "spinn_machine/exceptions.py:SpinnMachineInvalidParameterException"]}
{"id": "C97", "title": "virtual_machine tells the first thing that is wrong", "statement": "virtual_machine raises an exception of class e with text t only if e and t describe the first violated demand, in this order: a size of the version; the items of down_chips; those of down_cores; no physical core beyond 17 in down_cores for a chip without address (KeyError with that number); the items of down_links; and, when it is to validate, a chip at (0, 0), and for the chips in the order of the machine enough cores and an Ethernet chip that is there. Conversely the first violated demand is what is raised, for some order in which the set of down cores is gone through; the order matters only if different ids beyond 17 are named. A machine is returned exactly if no demand is violated. So validate=True never raises anything else on a virtual machine.", "quantifier": "all configurations, versions, sizes, and all orders of the set of down cores", "why_tests_cant": "All texts with any number of faults, on machines of any size; the order of the set depends on the interpreter.", "anchors": ["spinn_machine/virtual_machine.py:_VirtualMachine.__init__", "spinn_machine/ignores/ignore_core.py:IgnoreCore.virtual_p", "spinn_machine/machine.py:Machine.validate"]}
{"id": "C98", "title": "Iterators that run while the machine grows", "statement": "For any interleaving of next() calls with machine.add_chip(chip) and machine[x, y].router.add_link(link) (rejected ones too): the iterators of machine.chips, machine.chip_coordinates and iter(machine) give the chips in insertion order, as they are now, while no chip has been added since they were made, raise RuntimeError at every next() after one was, and StopIteration for ever once they have said it; the same holds for router.links and iter(router) under add_link. machine.ethernet_connected_chips is live: the n-th next() gives the n-th Ethernet chip that is there at that time. get_existing_xys_by_ethernet, get_down_xys_by_ethernet and get_chips_by_ethernet never raise anything but StopIteration; each next() gives the first position of the board behind the last one given that has (has not) a chip at that time; at the end all chips that were there at the start have been given, and all positions not given as down have a chip. one_way_links reads nothing before the first next(), gives only links that are one-way when given, raises nothing as long as no chip is added, and after one was may finish the chip it is at, then raises RuntimeError once. So add_chips(make(xy) for xy in get_down_xys_by_ethernet(x, y)) fills exactly the gaps of the board it reads from; a loop over machine.chips that adds a chip raises RuntimeError after its first pass; and a loop over one_way_links that adds the link back, on a machine whose links all lead to chips, comes to its end, mends links that were one-way at the start, and leaves none that is.", "quantifier": "all machines and routers and all finite histories of next() calls and additions of chips and links, in any order", "why_tests_cant": "The histories are unbounded in length and order; a test fixes one interleaving.", "anchors": ["spinn_machine/machine.py:Machine.chips", "spinn_machine/machine.py:Machine.chip_coordinates", "spinn_machine/machine.py:Machine.__iter__", "spinn_machine/machine.py:Machine.ethernet_connected_chips", "spinn_machine/machine.py:Machine.get_chips_by_ethernet", "spinn_machine/machine.py:Machine.one_way_links", "spinn_machine/machine.py:Machine.add_chip", "spinn_machine/no_wrap_machine.py:NoWrapMachine.get_existing_xys_by_ethernet", "spinn_machine/full_wrap_machine.py:FullWrapMachine.get_down_xys_by_ethernet", "spinn_machine/router.py:Router.links"]}
{"id": "C99", "title": "The data view says why it refuses", "statement": "After any history of calls, set_v_to_p_map raises SpinnMachineException('Can not have both quad_map and v_to_p_map') when a version with quads is known, else SpinnMachineException('Unexpected second call to set_v_to_p_map') when a set_v_to_p_map has worked since the last reset, else works. get_machine_version gives the version known and logs nothing, else logs and raises what version_factory does, and raises 'Can not have both quad_map and v_to_p_map' exactly when it first reads a version with quads while a map that is not empty is held; from then on it gives the version. No other call says either text, and version_factory never does. get_physical_core_id and get_physical_quad name the map, the chip or the core that is missing; get_machine says 'machine generator did not generate machine' exactly when the generator returned and there is no machine; get_chip_at raises KeyError with the coordinates; set_machine and set_machine_generator refuse other types and change nothing.", "quantifier": "all histories of calls of the data view and writer, with generators that make any calls, all configurations and arguments", "why_tests_cant": "What is said depends on the whole history since the last reset, which is unbounded; tests try a few sequences.", "anchors": ["spinn_machine/data/machine_data_view.py:MachineDataView.set_v_to_p_map", "spinn_machine/data/machine_data_view.py:MachineDataView.get_machine_version", "spinn_machine/data/machine_data_view.py:MachineDataView.get_machine", "spinn_machine/data/machine_data_view.py:MachineDataView.get_chip_at", "spinn_machine/data/machine_data_view.py:MachineDataView.get_physical_core_id", "spinn_machine/data/machine_data_view.py:MachineDataView.get_physical_quad", "spinn_machine/data/machine_data_writer.py:MachineDataWriter.set_machine", "spinn_machine/data/machine_data_writer.py:MachineDataWriter.set_machine_generator"]}
{"id": "C100", "title": "A file that was written in part is never read as a machine", "statement": "While to_json_path runs the files go from what they were, over an empty file at the path and every first part of the text, to what it leaves; no other file ever changes, and if to_json raises nothing has changed. Wherever it stops in between (a crash, a full disk, a reader that comes too early), machine_from_json of that path raises ValueError: it never gives the old, the new or any other machine. Any first part of the text of a JSON object is read as that object if only white space is missing and refused otherwise; if anything but white space follows such a text the whole is refused. After any runs of to_json_path, to any paths and each stopped anywhere, only the last run that opened the file counts for its path: the file is read as that run's machine if all its text arrived and refused with a ValueError if not, whatever was there before.", "quantifier": "all machines, all files before, all histories of runs with all points at which the writing stops, all texts of JSON objects and all ways to cut them or add to them", "why_tests_cant": "There is a crash point after every character of every file, for unboundedly many machines; a test writes a file and reads it whole.", "anchors": ["spinn_machine/json_machine.py:to_json_path", "spinn_machine/json_machine.py:machine_from_json"]}
{"id": "C101", "title": "Loops over collections of cores while they change", "statement": "An iterator over the subsets of a CoreSubsets or FrozenCoreSubsets, or over the processor_ids of a CoreSubset, while any calls are made in between on any of these objects, gives the items one by one in their order as long as there are as many as when it was made, RuntimeError from the first next() after there are more, and StopIteration for ever once it has said so (if OrderedSet holds an OrderedDict, the iterator over processor_ids says StopIteration when all that were there at its making have been given, and after RuntimeError); nothing is ever taken out or moved. The library's own loops in add_core_subset and add_core_subsets, which walk over live sets and dicts, never raise and do what they would do with a copy, also when the argument is the collection itself or one of its subsets, and then nothing changes. A caller's loop that adds a core on every chip of the collection it walks over comes to its end and adds just these; one that adds a chip raises RuntimeError after one round, with the chip added.", "quantifier": "all histories of the objects, all interleavings of next() with calls, all collections, also merged with themselves", "why_tests_cant": "The interleavings of next() and calls are unbounded, and aliasing of the argument with the collection depends on the history; tests read an iterator to its end at once.", "anchors": ["spinn_machine/core_subsets.py:CoreSubsets.add_core_subset", "spinn_machine/core_subsets.py:CoreSubsets.add_core_subsets", "spinn_machine/core_subsets.py:CoreSubsets.core_subsets", "spinn_machine/core_subsets.py:CoreSubsets.__iter__", "spinn_machine/core_subset.py:CoreSubset.processor_ids", "spinn_machine/frozen_core_subsets.py:FrozenCoreSubsets"]}
{"id": "C102", "title": "Comparing subsets of cores and using them as keys", "statement": "Two CoreSubset objects are == just when they are for the same chip and have the same cores, in whatever order they were added; != is the opposite, and nothing else is equal to a CoreSubset. == is an equivalence; equal subsets have equal hashes and the same len. a.intersect(b) == b.intersect(a) just when a and b are for the same chip, and a.intersect(a) == a; two collections have the same cores just when they have the same chips with equal subsets. A dict with CoreSubset keys to which no cores are added after their use as keys gives for a subset the value last set under an equal one (KeyError if there is none) and has one entry for each class of equal keys. When a core is added to a key, neither a subset equal to it nor one equal to what it was finds it any more, unless the hashes happen to agree; all others are found as before. The repr tells the chip and the cores in order, so equal subsets may have different texts (refuted).", "quantifier": "all histories of the objects and of the dict, all hash functions of tuples and frozensets, all subsets and queries", "why_tests_cant": "All pairs of subsets, all histories of calls and assignments to the dict, and all hash functions; tests compare a few subsets and put five into a dict.", "anchors": ["spinn_machine/core_subset.py:CoreSubset.__eq__", "spinn_machine/core_subset.py:CoreSubset.__ne__", "spinn_machine/core_subset.py:CoreSubset.__hash__", "spinn_machine/core_subset.py:CoreSubset.__repr__", "spinn_machine/core_subset.py:CoreSubset.intersect", "spinn_machine/core_subsets.py:CoreSubsets"]}
{"id": "C103", "title": "Groups of versions as objects that a program changes", "statement": "After any history of changes each member of VersionStrings has in its options the list last put there, and the text last set (those at import if there was none): changing one member never changes another, not even where two have the same versions. A name of a group stands for the first member whose current text is the same but for case, blanks, - and _; if there is none a SpinnMachineException is raised. version_factory with a group gives what it gives with the version that stands in the member's current list at the place minor % len(list); an emptied list raises a ZeroDivisionError, and every other failure is a SpinnMachineException. While no member is changed, and always for a cfg without a group, version_factory gives the same however often it has been run. The options are not read-only, as a comment has it: a program that appends to the list it was given changes what version_factory makes of the same cfg (refuted).", "quantifier": "all histories of changes to the members and runs of version_factory, all names, all cfgs, all minor versions of Python", "why_tests_cant": "All histories of changes and runs with all cfgs and names; tests look at the members as they are at import, with the Python version they run on.", "anchors": ["spinn_machine/version/version_strings.py:VersionStrings.options", "spinn_machine/version/version_strings.py:VersionStrings.short_str", "spinn_machine/version/version_strings.py:VersionStrings.from_string", "spinn_machine/version/version_factory.py:version_factory", "spinn_machine/version/version_factory.py:_get_cfg_version"]}
