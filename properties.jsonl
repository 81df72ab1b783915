{"id": "C01", "title": "Execution order respects every connection", "statement": "Whenever the node-graph ordering reports success, the returned order contains every added node exactly once and nothing else, and for every connection (a,b) that was added, a comes before b.", "quantifier": "every sequence of clear/add_node/add_edge calls, of any length and with any node ids", "why_tests_cant": "There are infinitely many graphs and insertion histories; tests try a handful of layouts.", "anchors": ["src/nodes/node_graph_ordering.rs: NodeGraphOrdering::{clear,add_node,add_edge,calculate_order}"]}
{"id": "C02", "title": "Ordering fails exactly on cycles", "statement": "The ordering is rejected (false, empty output) if and only if the added connections contain a directed cycle; an acyclic graph is never rejected and a cyclic one is never accepted.", "quantifier": "every sequence of graph construction calls within the documented 64-distinct-targets limit", "why_tests_cant": "Both directions quantify over all graphs; no finite suite shows that no cycle slips through.", "anchors": ["src/nodes/node_graph_ordering.rs: calculate_order", "src/matrix.rs: Matrix::check"]}
{"id": "C03", "title": "Path query is correct when it answers", "statement": "has_path(a,b) = Some(true) only if a directed path from a to b exists, Some(false) only if none exists; it always terminates, also on cyclic graphs. (It may answer None, and does so even for acyclic diamonds.)", "quantifier": "every constructed graph, every pair of node ids", "why_tests_cant": "Ranges over all graphs and pairs; termination on cyclic graphs is not observable by a test that passes.", "anchors": ["src/nodes/node_graph_ordering.rs: has_path"]}
{"id": "C04", "title": "Hexagonal neighbourhood is consistent", "statement": "For every cell position and every edge direction, stepping in the direction and then in its flipped direction returns to the start; two positions are reported adjacent exactly if one is a single step from the other, and the reported direction is the one that leads there; the two reports for (a,b) and (b,a) are flips of each other.", "quantifier": "every position (x,y) without bound, every direction", "why_tests_cant": "Parity-dependent offsets make every column a separate case; the grid is unbounded.", "anchors": ["src/cell_dir.rs: CellDir::{as_offs,offs_pos,flip,are_adjacent}"]}
{"id": "C05", "title": "Greedy cell path leads to its target", "statement": "The cell path from one position to another starts at the source, ends in the target, and each of its steps goes to an adjacent cell and has the direction needed.", "quantifier": "every pair of positions in range of the defensive step limit", "why_tests_cant": "Unbounded number of position pairs; greedy choices could get stuck for pairs nobody tried.", "anchors": ["src/cell_dir.rs: CellDir::path_from_to"]}
{"id": "C06", "title": "Placing a cell changes that cell and nothing else", "statement": "After placing a cell inside the matrix, reading that position yields the placed cell (with its position updated, in matrices of up to 256 columns and rows) and every other position reads as before; placing outside the bounds changes nothing and reading outside the bounds yields nothing.", "quantifier": "every matrix size, every position, every sequence of placements", "why_tests_cant": "An index computation must be injective over all sizes and positions.", "anchors": ["src/matrix.rs: Matrix::{place,get,get_copy,place_empty}"]}
{"id": "C07", "title": "Program connections are exactly the facing ports of neighbouring cells", "statement": "After a layout is checked, the set of signal connections handed to the DSP program is exactly: for each non-empty cell with an assigned input port on one of its three input edges whose neighbour in that direction has an assigned output port on the facing edge, one connection from that neighbour's output to that input. No connection is dropped or invented, and all of them are visible to the cycle check.", "quantifier": "every matrix layout of any size", "why_tests_cant": "Ranges over all layouts; missing-edge bugs depend on scan order and adjacency parity.", "anchors": ["src/matrix.rs: Matrix::{update_graph_ordering_and_edges,get_adjacent_output,check}"]}
{"id": "C08", "title": "Duplicate input assignments are reported exactly", "statement": "Checking a layout reports a duplicated input if and only if two different connections feed the same input of the same node instance; a layout reported fine has at most one source per node input.", "quantifier": "every matrix layout of any size", "why_tests_cant": "Needs all layouts, including distant cells that share one node instance.", "anchors": ["src/matrix.rs: Matrix::check", "src/matrix.rs: MatrixError::DuplicatedInput"]}
{"id": "C09", "title": "Failed matrix edits are rolled back", "statement": "If an edit transaction ends with an invalid layout (cycle or duplicated input) or an error, all cells read exactly as before the transaction; if it succeeds, exactly the edits of the closure are visible. Also the set of inputs reported as used is the one of the visible layout.", "quantifier": "every initial layout, every edit sequence inside the transaction", "why_tests_cant": "Rollback must hold for every layout/edit/error point combination.", "anchors": ["src/matrix.rs: Matrix::{save_matrix,restore_matrix,change_matrix,change_matrix_err,param_input_is_used}"]}
{"id": "C10", "title": "Connection listing is symmetric and complete", "statement": "The listed connections of a cell are exactly the adjacent cells that are connected with it by facing assigned ports; a cell A lists a connection to B if and only if B lists the mirrored connection to A.", "quantifier": "every layout, every pair of cells", "why_tests_cant": "Quantifies over all layouts and both viewpoints.", "anchors": ["src/matrix.rs: Matrix::{get_connections,get_adjacent}"]}
{"id": "C11", "title": "Port buffers of different nodes never overlap", "statement": "After (re)building the node ports, each node's outputs, inputs, atoms and modulators own contiguous index ranges, ranges of different nodes are disjoint, together they cover the buffers without gaps, and the local-to-global index translation is injective and rejects out-of-range ports.", "quantifier": "every list of created nodes of any kinds and length", "why_tests_cant": "The layout depends on all previously created nodes; overlap could appear in any combination.", "anchors": ["src/nodes/node_conf.rs: NodeConfigurator::rebuild_node_ports, NodeInstance::{in_local2global,out_local2global,mod_in_local2global}"]}
{"id": "C12", "title": "Every input reads the right signal source", "statement": "In the program built for an accepted layout, when a node is executed each of its connected inputs reads the buffer of the connected output (or the modulated mix of the own parameter and that output), and each unconnected input reads the own parameter buffer; the connected flags seen by the node are set exactly for its connected ports.", "quantifier": "every accepted layout of at most 256 created nodes whose kinds have at most 32 inputs, every node, every port", "why_tests_cant": "Ranges over all programs; wrong buffer wiring depends on global index arithmetic.", "anchors": ["src/nodes/node_prog.rs: NodeProg::{append_op,append_edge,assign_outputs}", "src/nodes/node_conf.rs: set_prog_node_exec_connection", "src/matrix.rs: build_prog"]}
{"id": "C13", "title": "One block evaluates the graph as a dataflow program", "statement": "Executing the uploaded program for one block computes, for every node, its output from the outputs its sources produce in the same block; no node reads a stale value of a source from an earlier block and no node runs twice.", "quantifier": "every accepted layout of at most 256 nodes, every node behaviour function, every buffer content", "why_tests_cant": "An end-to-end statement over all graphs and all node behaviours.", "anchors": ["src/nodes/node_exec.rs: NodeExecutor::process", "src/nodes/node_prog.rs", "src/matrix.rs: sync"]}
{"id": "C14", "title": "Parameter values survive graph changes", "statement": "After setting a parameter of a node, reading it yields the value set (inputs) until it is set again, regardless of how many nodes are created, how often ports are rebuilt and programs are uploaded; setting one parameter never changes another.", "quantifier": "every interleaving of parameter sets, node creations, port rebuilds and uploads", "why_tests_cant": "Histories are unbounded.", "anchors": ["src/nodes/node_conf.rs: NodeConfigurator::{set_param,get_param,rebuild_node_ports,create_node}"]}
{"id": "C15", "title": "Dumped parameters restore", "statement": "Dumping all parameter values of a configuration and loading the dump restores every dumped parameter value and modulation amount.", "quantifier": "every parameter store whose values survive denormalising and normalising (see C41) and whose samples are loaded, every entry order and target configuration", "why_tests_cant": "All store contents.", "anchors": ["src/nodes/node_conf.rs: {dump_param_values,load_dumped_param_values}"]}
{"id": "C16", "title": "A free instance is really free, and creation fills all gaps", "statement": "Requesting an unused instance of a node kind after a successful synchronisation returns an instance of that kind that no cell of the board uses, and the request ends if there is such an instance; after synchronising a layout, every instance number up to the largest used one exists as a DSP node and node creation happens in instance order.", "quantifier": "every configuration and layout", "why_tests_cant": "All combinations of used instances.", "anchors": ["src/nodes/node_conf.rs: unused_instance_node_id, create_node", "src/matrix.rs: create_intermediate_nodes, get_unused_instance_node_id"]}
{"id": "C17", "title": "The smoother arrives exactly at its target", "statement": "A parameter change is smoothed over exactly the configured number of samples, every intermediate value lies between the old and the new value (exact arithmetic) and from then on the delivered value is exactly the target (bit exact).", "quantifier": "every start/target value, every slope length", "why_tests_cant": "All values and lengths.", "anchors": ["src/util.rs: Smoother", "src/nodes/node_exec.rs: process_smoothers"]}
{"id": "C18", "title": "The audio side converges to the last parameter settings", "statement": "After the message queue is drained and smoothing has finished, the audio thread's parameter buffers hold the last values set by the frontend for every parameter, as long as no queue and no smoother limit is exceeded; updates issued before a program upload are applied in order. Modulation amounts likewise: once the queue is drained, every modulator of a running node uses the amount that the frontend reports, unless a call that set an amount reported an error.", "quantifier": "every sequence of parameter updates interleaved with blocks", "why_tests_cant": "Unbounded schedules of frontend and audio thread.", "anchors": ["src/nodes/node_exec.rs: {process_graph_updates,set_param,process_smoothers}", "src/nodes/node_conf.rs: {set_param,set_param_modamt}", "src/matrix.rs: set_param_modamt"]}
{"id": "C19", "title": "Audio buffers are never freed twice or leaked on program swap", "statement": "Whatever sequence of programs is uploaded to and exchanged in the audio thread, each signal buffer is owned by exactly one live program and is released exactly once when its owner is dropped; no input pointer refers to a released buffer after a swap.", "quantifier": "every sequence of program creations, swaps and drops", "why_tests_cant": "Memory ownership over all histories cannot be exercised by examples.", "anchors": ["src/nodes/node_prog.rs: NodeProg::{swap_previous_outputs,unlock_buffers,assign_outputs}, Drop for NodeProg/ModOp", "src/nodes/node_exec.rs: process_graph_updates"]}
{"id": "C20", "title": "MIDI events are delivered once, in order, at their frame", "statement": "Given time-ordered MIDI events, each event is delivered exactly once, in the block that contains its time and at the right frame within that block; events of later blocks are kept and none is lost or duplicated.", "quantifier": "every sorted event stream within the limits of events per block, every partition of time into blocks", "why_tests_cant": "All streams and block partitions.", "anchors": ["src/nodes/midi.rs: EventWindowing, MidiEventPointer"]}
{"id": "C21", "title": "Pattern cells read back what was written", "statement": "Setting a pattern cell value (or clearing it) makes exactly that cell read back that value, the shown string is that of the current value, and other cells are unaffected; editing outside the pattern has no effect.", "quantifier": "every edit history, every row and column", "why_tests_cant": "Histories are unbounded and a string cache has to stay coherent.", "anchors": ["src/dsp/tracker/pattern.rs: PatternData::{set_cell_value,clear_cell,get_cell,get_cell_value,change_value}"]}
{"id": "C22", "title": "Pattern serialisation round trip", "statement": "Converting pattern data into its serialised form and back yields a pattern with the same cells, column types, row count, edit step and cursor.", "quantifier": "every pattern", "why_tests_cant": "All patterns.", "anchors": ["src/dsp/tracker/pattern.rs: {to_repr,from_repr}", "src/matrix_repr.rs: PatternRepr::{serialize,deserialize}"]}
{"id": "C23", "title": "Pattern edits reach the sequencer", "statement": "After the frontend finished sending updates and the backend received them, the backend plays for every column exactly the data of the frontend pattern; note columns hold the last note, step columns the last step value, value columns interpolate linearly between given values, gate columns carry the gate bits.", "quantifier": "every pattern, every edit/send/receive schedule without queue overflow", "why_tests_cant": "All schedules and contents.", "anchors": ["src/dsp/tracker/mod.rs: Tracker, TrackerBackend", "src/dsp/tracker/pattern.rs: sync_out_data"]}
{"id": "C24", "title": "Saved cells, atoms and parameters round trip through JSON", "statement": "Serialising a matrix description and reading it back yields the same description (cells, atoms, parameters, patterns, block functions, properties); data of a newer format version is rejected; unknown nodes are rejected.", "quantifier": "every matrix description with finite numbers that fit the JSON integers, micro samples of 8 values and ports that exist; every pair of a printer and a parser of JSON that fit together", "why_tests_cant": "All descriptions.", "anchors": ["src/matrix_repr.rs: MatrixRepr::{serialize,deserialize}, CellRepr, serialize_atom, deserialize_atom"]}
{"id": "C25", "title": "Saving a patch is all-or-nothing with respect to crashes", "statement": "If saving is interrupted at any point, the target file holds either the complete old or the complete new contents, and after a successful save it holds the new contents.", "quantifier": "every crash point, every content", "why_tests_cant": "Crash points cannot be enumerated by unit tests.", "anchors": ["src/matrix_repr.rs: MatrixRepr::write_to_file"]}
{"id": "C26", "title": "Saving and loading a matrix restores the patch", "statement": "Loading the description taken from one matrix into any matrix, in memory or through its JSON text, reproduces every non-empty cell, every stored parameter with its modulation amount, the properties, and every pattern and block function that was set; what was not set in the source stays as it was in the target; the call reports an error exactly if the saved layout has a cycle.", "quantifier": "every content of the source matrix and every state of the target matrix", "why_tests_cant": "All contents and all target states.", "anchors": ["src/matrix.rs: Matrix::{to_repr,from_repr}", "src/matrix.rs: Cell::{to_repr,from_repr}"]}
{"id": "C27", "title": "Feedback delay has a fixed latency and loses nothing", "statement": "What is written into a feedback writer comes out of the matching feedback reader delayed by the same fixed number of samples, independent of the sizes of processed blocks.", "quantifier": "every input signal, every block partition, every relative execution order", "why_tests_cant": "All signals and block partitions.", "anchors": ["src/shared_feedback.rs", "src/dsp/node_fbwr_fbrd.rs"]}
{"id": "C28", "title": "Node name tables are consistent", "statement": "For every node kind, each input, atom and output name maps to an index that maps back to the same name, names are unique within their kind, indices are dense, default values lie in the declared ranges (up to the rounding of the declared bounds; the two high pass cutoffs of the plate reverb, whose default is 0 Hz, are the only exceptions) and no node exceeds the port limits.", "quantifier": "every node kind and every port or name of it", "why_tests_cant": "The table has hundreds of entries produced by a macro.", "anchors": ["src/dsp/mod.rs: node_list, make_node_info_enum, NodeId::{inp,out,inp_param,param_by_idx,out_name_by_idx,inp_name_by_idx,from_str,name}"]}
{"id": "C29", "title": "Monitor buffers are conserved", "statement": "The buffers circulating between audio thread and monitor are never lost or duplicated; each sent sample reaches the min/max computation once and in order, and each reported pair bounds exactly the samples of its window.", "quantifier": "every schedule of sending, receiving and recycling; samples within +-100", "why_tests_cant": "Unbounded schedules.", "anchors": ["src/monitor.rs: MonitorBackend, Monitor, MonitorMinMax"]}
{"id": "C30", "title": "Visual value filters report true peaks", "statement": "The filter used for LED feedback reports, for the sampled window, the largest positive and the largest negative excursion of the pushed values.", "quantifier": "every value sequence", "why_tests_cant": "All sequences.", "anchors": ["src/nodes/visual_sampling_filter.rs", "src/nodes/feedback_filter.rs"]}
{"id": "C31", "title": "Synth graph upload is order independent", "statement": "Uploading a constructed synth graph creates all reachable nodes, executes each exactly once with producers before consumers and wires each connected input to its source, whatever the iteration order of the internal maps; a cyclic graph is rejected.", "quantifier": "every constructed node graph, every map iteration order", "why_tests_cant": "Hash map order varies per process run.", "anchors": ["src/synth_constructor.rs: SynthConstructor::{upload,update_params,clear}"]}
{"id": "C32", "title": "Block programs never contain overlapping blocks", "statement": "In the visual block language, whatever sequence of edit operations succeeds or fails, no two blocks of an area cover the same cell, each covered cell resolves to the block covering it, and block ids are unique.", "quantifier": "every sequence of edit operations, failing or not, for every set of block types with at least one row, in which splits are filled with blocks of one row and clones go into existing areas", "why_tests_cant": "Histories are unbounded.", "anchors": ["src/wblockdsp/language.rs: BlockFun, BlockArea"]}
{"id": "C33", "title": "Failing block edits leave the program unchanged", "statement": "If a block edit operation (instanciate, remove, move, clone, shift port, split, chain move) reports an error, all areas, blocks and connections are as before, but for empty areas that a failing clone may leave behind. (The target area must exist: a move to an area that does not exist deletes the block.)", "quantifier": "every edited program, every failing operation with an existing target area", "why_tests_cant": "All failing states.", "anchors": ["src/wblockdsp/language.rs: BlockFun::{instanciate_at,remove_at,move_block_from_to,clone_block_from_to,move_block_chain_from_to,split_block_chain_after,shift_port}"]}
{"id": "C34", "title": "A block chain is the connected component", "statement": "The chain retrieved at a block contains exactly the blocks that are connected to it by a path of matching output/input ports; starting from any member gives the same chain.", "quantifier": "every area content, every start block", "why_tests_cant": "All areas.", "anchors": ["src/wblockdsp/language.rs: BlockArea::chain_at"]}
{"id": "C35", "title": "Block program snapshots round trip", "statement": "Saving a block program to a snapshot, serialising it, reading it back and loading it yields the same areas and blocks, and new blocks get fresh ids.", "quantifier": "every block program whose numbers fit the JSON integers, every order of the hash maps", "why_tests_cant": "All programs.", "anchors": ["src/wblockdsp/language.rs: {save_snapshot,load_snapshot}, BlockFunSnapshot, Block::{serialize,deserialize}, BlockArea::{serialize,deserialize}"]}
{"id": "C36", "title": "Compilation of a block program preserves its dataflow meaning", "statement": "The generated code has a value for each execution: it assigns each temporary variable before it is read, calls each node of the DSP library once with the values at its inputs, its value is that of the last open output, and a variable of the user's gets the input of the last block that sets it and no other variable changes. The values at the outputs are the unique ones the block wiring denotes.", "quantifier": "every program made by any history of edits, without \"if\", with numbers as literals, variables that are not both read and written, an open output and inputs in order behind blocks with several outputs; every DSP library with distinct port names; all numbers, arithmetics and nodes", "why_tests_cant": "All programs.", "anchors": ["src/wblockdsp/compiler.rs: Block2JITCompiler", "src/wblockdsp/language.rs: generate_tree"]}
{"id": "C37", "title": "Block port shifting permutes ports", "statement": "Shifting ports of a block permutes its ports, loses none and adds none; it moves one port to the next row (from the last to the first) and keeps the order of the others. Shifting a port on from row to row as often as there are rows restores the original order.", "quantifier": "every block, every row count", "why_tests_cant": "All sizes.", "anchors": ["src/wblockdsp/language.rs: Block::shift_port, BlockFun::shift_port"]}
{"id": "C38", "title": "Chain builder places cells as written", "statement": "A cell chain whose names exist is placed without error: the k-th cell lies k steps of the chain's direction away from the start, with the named ports at the two edges of that direction, an unused instance for the first node of a kind and counted-up ones for further nodes; cells elsewhere are unchanged. The parameters are set to the last value described, on the named node, which is the placed instance when the kind occurs once and its first instance is unused (false otherwise). A name that does not exist makes the placement fail without touching the matrix.", "quantifier": "every chain description (nodes, links, parameter calls in any order), direction, start position and matrix", "why_tests_cant": "Directions, descriptions and matrices are unbounded; the one unit test places three different nodes on an empty matrix.", "anchors": ["src/chain_builder.rs: MatrixCellChain"]}
{"id": "C39", "title": "Scope recordings stay in their buffers", "statement": "Writing and reading scope samples never goes out of bounds, a sample written at a position is read back at that position and does not disturb other signals.", "quantifier": "every signal index, position and write history", "why_tests_cant": "All histories.", "anchors": ["src/scope_handle.rs: ScopeHandle"]}
{"id": "C40", "title": "Log messages arrive intact", "statement": "Each log line sent from the audio thread that fits into the buffer is delivered unchanged, in order and separated from other lines.", "quantifier": "every sequence of polls and messages of at most 510 bytes", "why_tests_cant": "All message streams and polling schedules.", "anchors": ["src/log.rs"]}
{"id": "C41", "title": "Parameter normalisation round trips", "statement": "For every parameter scale (linear, exponential, decibel free scales, pitch, detune), normalising a value in the declared range gives a normalised value in range, and denormalising it gives the value back; both maps are monotone (exact arithmetic).", "quantifier": "every value in the parameter range", "why_tests_cant": "All real values.", "anchors": ["src/dsp/mod.rs: define_lin!, define_exp!, define_exp4!, define_exp6!, n_pit!, d_pit!, n_det!, d_det!"]}
{"id": "C42", "title": "Signal mapping nodes stay within their output range", "statement": "With clipping enabled, the mapping nodes' output always lies between the given minimum and maximum (whichever is larger); the documented endpoints of each input mode map to the documented output endpoints.", "quantifier": "every input, range and mode; exact arithmetic for the simple mapper and for the endpoints, every single precision number (bounds that are not NaN) for the clipping of the mapper", "why_tests_cant": "All real inputs.", "anchors": ["src/dsp/node_map.rs", "src/dsp/node_smap.rs"]}
{"id": "C43", "title": "Multiplexer always selects a valid input", "statement": "The multiplexer's selected input is always below the configured count, up/down triggers are inverse to each other and wrap around, reset selects the first input.", "quantifier": "every trigger history, every count setting of the menu (0 to 8)", "why_tests_cant": "All histories.", "anchors": ["src/dsp/node_mux9.rs"]}
{"id": "C44", "title": "MIDI gate output follows the notes", "statement": "The MIDI pitch node's gate is high exactly while the last started note on the selected channel is held, every new note-on while the gate is high yields a one-sample gap, and events on other channels have no effect.", "quantifier": "every MIDI event stream and block partition", "why_tests_cant": "All streams.", "anchors": ["src/dsp/node_midip.rs"]}
{"id": "C45", "title": "Sequencer selects the right pattern row", "statement": "For every phase in [0,1] the sequencer selects a row inside the pattern, rows are visited in increasing order as the phase grows and each row takes an equal share of the phase.", "quantifier": "every phase and row count", "why_tests_cant": "All real phases.", "anchors": ["src/dsp/tracker/sequencer.rs"]}
{"id": "C46", "title": "Placing a cluster only fills empty cells", "statement": "Placing several cells at once succeeds only if every target position lies inside the matrix and is empty; on success exactly those positions are replaced by the given cells, all other cells are unchanged and the resulting layout is free of cycles and duplicated inputs.", "quantifier": "every layout, every list of cells", "why_tests_cant": "ranges over all layouts and clusters, including clusters that overlap with themselves", "anchors": ["src/matrix.rs: Matrix::place_multiple"]}
{"id": "C47", "title": "Gate columns play their cells as coded", "statement": "In a gate column of the sequencer an empty cell is silent, and a cell that fires is high in the first n/16 of each of its 1 to 16 equal gates and low in the rest, where the digits of the cell give both numbers. A cell with the highest chance always fires, others fire when the random number does not exceed their chance. As long as the play head stays in a row the row fires as a whole or not at all, however the frames are split into blocks and whatever other columns do; going from one row left to chance to another takes a new random number. The playback never panics.", "quantifier": "every pattern, phase sequence, splitting into blocks and sequence of random numbers", "why_tests_cant": "All phases, cells and random sequences, and rounding of the phase arithmetic.", "anchors": ["src/dsp/tracker/sequencer.rs: col_gate_at_phase", "src/dsp/tracker/mod.rs: get_col_at_phase", "src/dsp/node_tseq.rs"]}
{"id": "C48", "title": "Controller outputs follow their controllers", "statement": "Each of the three outputs of the MIDI controller node follows, through its slew limiter, the value of the last event of its selected controller on the selected channel, in the very frame of the event, and is at the start value before the first event. Events of other controllers or channels have no effect. The LED is lit after a block exactly if an event of a selected controller came in this block. For this the selected controllers must be different.", "quantifier": "every MIDI event stream, block partition, channel, selection of controllers and slew signal", "why_tests_cant": "All streams, selections and partitions into blocks.", "anchors": ["src/dsp/node_midicc.rs: MidiCC::process", "src/nodes/midi.rs: MidiEventPointer"]}
{"id": "C49", "title": "The sample player plays the selected part", "statement": "The sample player never panics or reads outside of the loaded sample, whatever samples, settings and modulations it gets. After a trigger it plays the part of the sample that offset and length select, from its start (or its end, backwards) at the speed that the inputs give: once and then silence in the one shot mode, again and again in the loop mode, independent of the sizes of the blocks.", "quantifier": "every sample, sequence of blocks, setting, trigger and modulation of speed, offset and length", "why_tests_cant": "All samples, speeds, modulations and partitions into blocks.", "anchors": ["src/dsp/node_sampl.rs: Sampl::play, Sampl::next_sample, process"]}
{"id": "C50", "title": "User supplied nodes are exchanged safely while they run", "statement": "DSP code sent for an instance of the Rust1x1 node is run by the newest node of this instance from then on, block after block with the state it left behind, until other code is sent for the instance; if there is no such node yet, it is kept for the first one. A node without code, also one that replaces an earlier node of the instance, is silent until code is sent after its construction. The exchange behaves as if each call happened at one moment, whatever the two threads do in between; neither thread ever waits or panics, and the frontend never touches the code that the audio thread is running.", "quantifier": "every interleaving of the steps of the frontend (sending code, constructing nodes) and of the audio thread (running nodes), every number of instances and nodes, every user code", "why_tests_cant": "The property is about all interleavings of two threads and all histories of sending, constructing and running.", "anchors": ["src/dsp/node_rust.rs: DynNodeHandle, DynNodeBuffer::access, Rust1x1::new, Rust1x1::process", "src/global.rs: send_dynamic_node1x1, get_dynamic_node1x1_buffer"]}
{"id": "C51", "title": "What is heard is what is connected", "statement": "Once the audio thread has handled all messages, the running program is the one of the board that was published last (by a successful sync, by switching a modulation on or off, or by clearing the matrix). In every block from then on the audio device is given, on its two channels, exactly the signals that arrive at the Out node, times its volume (the first channel on both in the mono mode), and nothing else; without an Out node nothing is written. The signal that arrives at an input is the input's own value if nothing is connected on the board, otherwise the connected output of the same block, mixed into the own value by the modulation amount if there is one. The Inp node puts out the samples of the device times its volume, the Amp node its signal times attenuation and gain, the Mix3 node the sum of its channels times their volumes.", "quantifier": "every interleaving of API calls, message handling, blocks and releases in which the messages fit into the queue and at most 256 nodes exist; every board, parameter value and block size; every behaviour of all other nodes", "why_tests_cant": "The property is about all boards, all histories of edits and all interleavings with the audio thread.", "anchors": ["src/dsp/node_out.rs: process", "src/dsp/node_inp.rs: process", "src/dsp/node_amp.rs: process", "src/dsp/node_mix3.rs: process", "src/nodes/node_exec.rs: process", "src/nodes/node_prog.rs: NodeProg", "src/matrix.rs: sync, set_param_modamt, clear"]}
{"id": "C52", "title": "Samples are loaded once and completely", "statement": "Setting a sample parameter to the path of a WAV file stores and sends the sample rate followed by the first channel of the file, up to 60 seconds of it, in order, integer samples scaled to floats; damaged samples of other channels do not matter. If the file cannot be opened or one of these samples cannot be read, the parameter keeps the bare path, one error naming the path is reported, and a later attempt reads the file again. A path that was loaded gives the same sample for ever, whatever happens to the file, and never that of another path. Errors are reported last first. No file makes it panic.", "quantifier": "every history of sample parameters set and errors popped, every content of the file system at each of these moments, every number of channels, rate and length", "why_tests_cant": "The property is about all files, damage at all places, and all histories in which files change between the calls.", "anchors": ["src/sample_lib.rs: SampleLibrary::load", "src/nodes/node_conf.rs: set_param, pop_error"]}
{"id": "C53", "title": "Observers and the generation counter tell of every change", "statement": "While an observer is set, every call that changes what can be read from the matrix tells it: a changed property is told by name or as a change of everything; a changed value or modulation amount of a parameter by the parameter, as a change of the graph, or of everything; the last monitored cell told is the monitored cell; the graph is told as changed exactly if the audio thread is sent a new program. So an observer that reads again what it is told of always has an exact copy. It is told of nothing that the call was not about. The generation never falls, and if it is the same at two moments, no property, value or modulation amount has changed and no program was sent in between.", "quantifier": "every history of calls on a matrix of every size, every observer set at any point of it, every node table", "why_tests_cant": "A change that is told by no call is only visible in the combination of call and state that makes it, and all combinations have to be right for a copy to stay exact.", "anchors": ["src/matrix.rs: MatrixObserver, set_observer, set_prop, get_prop, get_generation, set_param, set_param_modamt, monitor_cell, remonitor_cell, sync, clear, from_repr"]}
{"id": "C54", "title": "MIDI events come back to the observer and injected ones reach the nodes", "statement": "However the audio thread and the frontend interleave, what an observer is told of MIDI events is what the nodes have seen: notes in their order, controls in their order, each at most once. If the frontend is never more than 512 events behind, nothing is missing: after a call of handle_graph_events the observer has been told of every event the nodes have seen. Every injected event appears at the first frame of at most one block, before the events of the host; of exactly one if the audio thread takes messages before 512 are waiting and not more than 64 between two blocks; then the observer is told of it. Events injected before the same block appear last first.", "quantifier": "every schedule of injections, other messages, polls, observer changes, blocks of any size with any source of events, and every point between two pushes of a block", "why_tests_cant": "Pushes and polls of two threads interleave at every point, and losses show only when a buffer is full.", "anchors": ["src/matrix.rs: inject_midi_event, handle_graph_events, MatrixObserver::midi_event", "src/nodes/node_conf.rs: inject_midi_event, next_event", "src/nodes/node_exec.rs: process_graph_updates, feed_midi_events_from"]}
{"id": "C55", "title": "A cell reports its neighbourhood exactly", "statement": "The free places found around a cell are exactly the empty places of the matrix next to it in the asked directions, each once. The first free place is one of them, exists if any does, and is one where the cell has a port if there is such a place, with that port; a node placed there with a port towards the cell is connected to exactly that port, and no other connection of the cell changes. A direction is reported as connected exactly if ports of both cells meet there, which between nodes is exactly where a signal flows; the unconnected directions are the others. The label of an edge is the name of the port there, and its mark says whether the neighbour of an output has an input there. A port set by name is the named one and nothing else changes.", "quantifier": "every matrix of every size and content, every cell that knows its position, every direction, node, name and buffer length", "why_tests_cant": "The hexagonal neighbourhood depends on the parity of the column and the borders; tests check some positions of some layouts.", "anchors": ["src/matrix.rs: Cell::find_first_adjacent_free, find_all_adjacent_free, find_unconnected_ports, is_port_dir_connected, set_input_by_name, set_output_by_name", "src/matrix.rs: Matrix::edge_label, adjacent_edge_has_input, get_copy, place"]}
{"id": "C56", "title": "Rounding a knob snaps to the documented grid", "statement": "Rounding a normalised parameter value gives a value of the parameter's range, whatever the value was. For values of the range, rounding again changes nothing, rounding never changes the order of two values, and the rounded value is, in the unit that is shown (dB, semitones, ms, Hz, octaves), at most half a step of the grid of that place away and a multiple of the step, unless it was clamped to an end of the range. Below 10 ms the grid of LFO times is that of the frequencies. A coarsely rounded value is not moved by the fine rounding.", "quantifier": "every parameter of every node, every value, coarse and fine, in exact arithmetic", "why_tests_cant": "The steps change at many bounds and each rounding goes through a non-linear scale and back; tests round a few values of a few parameters.", "anchors": ["src/dsp/mod.rs: ParamId::round, ParamId::denorm, ParamId::param_min_max, ParamId::param_steps", "src/dsp/mod.rs: macros r_id, r_s, r_det, r_dc_ms, r_ems, r_tms, r_fms, r_tmz, r_fq, r_vps, r_lfot, define_db, node_list"]}
{"id": "C57", "title": "The Scope node shows the signal that was there", "statement": "No history of sample rates and blocks makes the Scope node panic. After a block the view has the offsets, gains, threshold and connected inputs of that block. With a trigger, a full picture stands still while the trigger does not fire; when it fires, the frames after it are shown from the first position on: with a long time range each position shows the largest and the smallest value of exactly its frames, position n ending with frame ceil((n+1) * frames per position); with a short one each frame fills a fixed number of positions; positions not yet reached keep what they showed. Without a trigger the picture is written round and round without losing a frame. A picture with a short time range takes at least the frames of that time and at most twice as many and one.", "quantifier": "every history of sample rates and blocks of every length, every time, threshold, signal and behaviour of the trigger detector", "why_tests_cant": "Time accumulates over frames and blocks of any sizes; losing or doubling a frame at a border shows only for some ratios of time and sample rate.", "anchors": ["src/dsp/node_scope.rs: Scope::process, Scope::set_sample_rate", "src/scope_handle.rs: ScopeHandle"]}
{"id": "C58", "title": "Reported output, LED and phase values are those of the right node", "statement": "After any interleaving of matrix calls with the audio thread, update_output_feedback succeeds, and after it out_fb_for gives, for each output of each node, the last sample that this node computed there in the latest published block of the program uploaded last: zero if there is no such block yet or the node did not run in it. Every output of every node that ran has a value, and a node runs at most once per block. The audio thread does not change what is reported between two updates. After the synchronisation of an acyclic layout, one round of taking messages and one block, every node on the board is reported. With up to 256 nodes led_value_for and phase_value_for never panic and give the value which the node set last in a block of the latest program.", "quantifier": "every history of calls, updates, message processing, blocks of any length, publications and releases, in every interleaving, and every behaviour of the nodes", "why_tests_cant": "The values travel through a triple buffer that belongs to a program; whether a reader gets the values of the wrong program, of the wrong node or of half a block depends on the interleaving of three threads and on the history of uploads.", "anchors": ["src/nodes/node_conf.rs: out_fb_for, update_output_feedback, led_value_for, phase_value_for, upload_prog", "src/nodes/node_prog.rs: NodeProg, get_feedback_consumer", "src/nodes/node_exec.rs: process", "src/matrix.rs: out_fb_for, led_value_for, phase_value_for, update_output_feedback"]}
{"id": "C59", "title": "The code nodes run the block programs that were checked", "statement": "A block program that is edited through its handle reaches the code node of the same number with the next check: after an edit that changes a block, the first check compiles the program as it is then, answers the error of the compiler or of the engine if there is one, and sends the code exactly if there is none. If no check failed since the change, the code that runs after a check that answered without an error is the compiled program, until the next edit. Checks without an edit send nothing again. A failing check keeps the code that runs, calls about one program leave the others as they are, and asking for a program again returns the one that was edited.", "quantifier": "all block languages, all histories of making code nodes, asking for programs, edits of the block editor (with errors, snapshots, clones and moves) and checks, for all numbers at once; for every acceptance of the engine", "why_tests_cant": "Whether a change is noticed depends on a counter that each edit operation has to increase by itself, and on the order of edits, failing checks and successful checks; tests try a few edits and one check.", "anchors": ["src/global.rs: NodeGlobalData::check_code, get_block_function, get_code_engine, has_code_engine", "src/matrix.rs: Matrix::check_block_function, get_block_function", "src/wblockdsp/language.rs: BlockFun::generation and the edit operations", "src/wblockdsp/compiler.rs: Block2JITCompiler::compile"]}
{"id": "C60", "title": "What a patch plays does not depend on the block lengths", "statement": "With nodes that work frame by frame, the signals of all outputs, the states of all nodes and the current parameter values only depend on the number of frames that were processed, not on how the host divides them into blocks of 1 to 128 frames, also while parameters are on their way to new settings and inputs are modulated. No block fails. A node that reads a parameter once in a block (like BiqFilt) breaks this.", "quantifier": "every engine reached by API calls, message handling, blocks and releases within the limits of queue and smoothers, every frame-wise behaviour of the nodes with any state, any float arithmetic, every two lists of block lengths with the same sum", "why_tests_cant": "a test renders with one or two block sizes; the result must be the same for every division of the time line, at every point of every parameter ramp and in every graph", "anchors": ["src/nodes/node_exec.rs: process, process_smoothers, test_run", "src/nodes/node_prog.rs: ModOp::process", "src/util.rs: Smoother", "src/dsp/node_biqfilt.rs: process"]}
{"id": "C61", "title": "A random walk stays in its range and takes steps of the size that is set", "statement": "The samples of a RndWk node lie in every interval that contains its start and the min/max ranges (in either order, limited to 0..1) at all triggers so far; without slewing each sample lies in the range of the last trigger. A trigger moves the value at most by the amounts of step and offs (plus 10^-6 for rounding), also where the range reflects it. With step 0 the random numbers do not matter. Ranges narrower than 1/10000 count as that wide.", "quantifier": "every sequence of blocks with any parameter values per frame, every random number generator in [0, 1], every slew limiter that does not overshoot, every rounding with the error of f32 (and exact arithmetic)", "why_tests_cant": "a test runs one seed with a few settings; the range must hold for every sequence of random numbers, every moving range and with rounding errors at the reflection points", "anchors": ["src/dsp/node_rndwk.rs: RndWk::process"]}
{"id": "C62", "title": "The filters work with the current settings", "statement": "After a change of its type an SFilter plays like a new one; whatever its inputs are, its filter functions only get frequencies, resonances and (Moog) input samples in their ranges; notch and peak are the sum and difference of low-pass and high-pass. A BiqFilt with settings from the menu never panics and plays, whatever happened before, through as many filters as the order says, with the coefficients of the current sample rate and type and a frequency and Q within 1/10000 of the current ones; with fixed settings after the sample rate is set it is exactly the chain of new filters. An FVaFilt plays every frame with the current type, modes, frequency, resonance and drive as long as the ladder mode is only changed while the ladder is selected.", "quantifier": "every history of blocks with any settings and inputs per frame, every sample rate and reset, every behaviour of the underlying filter functions", "why_tests_cant": "each of the nodes caches settings and only recalculates on a change; whether a stale cache can be heard depends on the whole history of settings", "anchors": ["src/dsp/node_sfilter.rs: SFilter::process", "src/dsp/node_biqfilt.rs: BiqFilt::process, set_sample_rate, reset", "src/dsp/node_fvafilt.rs: FVaFilt::process"]}
{"id": "C63", "title": "The generators stay in their ranges and keep their phase", "statement": "A Sin oscillator whose phase modulation is never below -2^24 finishes every frame, keeps its phase in [0, 1) and calls the sine function with arguments from 0 to 2 pi only; its sample number n is the sine of the start phase plus the cycles of all frequencies before plus the phase modulation of this frame, for every division into blocks. The samples of FormFM do not exceed 1 (or a larger peak parameter). Noise stays within the amount of atv around offs (bipolar) or between offs and offs + atv (unipolar), starts from the beginning after a reset, and has another seed in every instance.", "quantifier": "every sequence of blocks with any frequencies, modulations and parameters per frame; every rounding that is monotone and exact on integers up to 2^24; every random number generator in [0, 1]", "why_tests_cant": "tests render a few frequencies; the phase is a state that must stay valid for every modulation signal, and the loop that makes it positive must end for every one", "anchors": ["src/dsp/node_sin.rs: Sin::process", "src/dsp/node_formfm.rs: FormFM::process", "src/dsp/node_noise.rs: Noise::new, reset, process"]}
{"id": "C64", "title": "Recordings are made frame by frame", "statement": "test_run_input returns as many frames as the input has (test_run: as the time says) and frame number t is what the engine makes of the input sample t and the MIDI events of time t, one frame after the other; events at or after the end are left out. No block is lost, repeated or longer than 128 frames.", "quantifier": "every engine that works frame by frame, every input, every time-ordered list of events with fewer than 512 notes and 1024 control events per block; the lengths for every engine", "why_tests_cant": "the loop is what every test of the crate uses; its block limits and the windows of the events must fit for every length and every list of events", "anchors": ["src/nodes/node_exec.rs: test_run_input, test_run, feed_midi_events_from"]}
{"id": "C65", "title": "Effects and envelopes work on what arrives at them and go on where they stopped", "statement": "In every block, a reverb, delay, comb, all-pass, envelope, LFO, external parameter, quantizer or test node in the running patch gets, frame by frame, the signals that arrive at its named inputs and its current settings, in the ranges it documents, continues from the state it had after its previous block, and its outputs carry the mix or product it documents. A reverb with one connected input plays it on both sides. A node knows exactly which of its ports are connected on the published board: Mux9 follows its selection input exactly when this is connected, Scope shows exactly its connected inputs.", "quantifier": "every history of matrix calls, audio blocks and message handling, every board and block length, every behaviour of the DSP objects inside the nodes, every sequence of host parameters", "why_tests_cant": "port numbers, connection masks and states depend on the board and on the history of edits; a swapped port or a state lost between blocks shows only in particular patches", "anchors": ["src/dsp/node_pverb.rs", "src/dsp/node_delay.rs", "src/dsp/node_comb.rs", "src/dsp/node_allp.rs", "src/dsp/node_ad.rs", "src/dsp/node_adsr.rs", "src/dsp/node_tslfo.rs", "src/dsp/node_ext.rs", "src/dsp/node_quant.rs", "src/dsp/node_cqnt.rs", "src/dsp/node_test.rs", "src/dsp/node_mux9.rs: in_connected", "src/scope_handle.rs: set_active_from_mask", "src/nodes/node_prog.rs: append_edge"]}
{"id": "C66", "title": "The oscillators play the note that arrives, with or without oversampling, and a still string stays silent", "statement": "In every block a basic, vector or bowed-string oscillator in the running patch plays the frequency of its inputs freq and det together, with the wave, shape and distortion that its inputs and settings give, goes on from the state after its previous block, and shows its last sample as its LED. However often oversampling is switched, the phase of a vector oscillator advances by frequency over sample rate per frame, and out of range shape inputs act like values in range. The two parts of a bowed string are together one period of the note, no note is longer than a twentieth of a second; a bow that does not move never makes the waves larger, a string at rest stays silent until the bow moves.", "quantifier": "every history of matrix calls, audio blocks and message handling, every board, block length and sequence of input values, every behaviour of the DSP objects inside (for the phase: every oscillator that advances by frequency times time)", "why_tests_cant": "pitch and stability must hold for every sequence of modulated inputs and switches and for every board; tests listen to a few settings", "anchors": ["src/dsp/node_bosc.rs", "src/dsp/node_vosc.rs", "src/dsp/node_bowstri.rs", "src/dsp/mod.rs: denorm_offs"]}
{"id": "C67", "title": "Lists of nodes are complete and random nodes are nodes that suit", "statement": "The list of nodes of a category contains exactly the nodes that report this category, each once and in the order of the node list, and skipping leaves out just the first ones. Asking for random nodes gives as many entries as asked for; every entry is a node that exists and suits the selection, except for empty ones at the end, which appear only when a hundred random numbers did not give enough; up to a hundred nodes without selection are always found, and every suitable node can be found. Two oscillators never start more than a quarter of a period apart, and the phases of the first three instances are fixed and different.", "quantifier": "every category and number of skipped entries, every sequence of random numbers, every number of nodes asked for and either selection; every pair of nodes", "why_tests_cant": "the numbers are random and seeded by the time, and tests cannot try every sequence", "anchors": ["src/dsp/mod.rs: UICategory::get_node_ids, get_rand_node_id, RandNodeSelector, ALL_NODE_IDS, NodeId::init_phase, NodeId::ui_category"]}
{"id": "C68", "title": "The graphs of the nodes show what the nodes play, whatever was drawn before", "statement": "Asking a node's graph for a picture never panics and gives one value per place. The picture depends only on the parameters, not on earlier pictures. The graph of BOsc shows the wave the node itself plays for the same setting and pulse width, at two periods in 128 places, moved into 0.05..0.95; the graph of VOsc shows the node's own frames without oversampling, at one period in 128 places, moved into 0..1; the graph of ADSR starts at 0 and shows an envelope with the node's settings whose gate closes after 70 percent of the width; the graph of TsLFO shows an LFO with the node's settings. The graph of AD stays in 0..1, rises during the attack, reaches exactly 1 at the last place of the attack for every raster, falls afterwards, and is 0 after the decay; the attack and the decay each take half of the position of their knob. In between it shows the part of the attack that is over, bent by the attack's shape, and the part of the decay that is left, bent by the decay's shape.", "quantifier": "Every parameter value and setting, every list of places (for AD: ascending from 0 or more, with a knob position not below 0 and shape curves that map 0..1 into 0..1 and rise), every picture drawn before, and every behaviour of the oscillators and envelopes of synfx_dsp whose reset forgets the past. For VOsc: a distortion amount within its range.", "why_tests_cant": "The raster, the parameters and the pictures drawn before are unbounded; a test draws a few pictures.", "anchors": ["src/dsp/node_ad.rs: graph_fun", "src/dsp/node_adsr.rs: graph_fun", "src/dsp/node_bosc.rs: graph_fun", "src/dsp/node_vosc.rs: graph_fun", "src/dsp/node_tslfo.rs: graph_fun", "src/dsp/node_test.rs: graph_fun", "src/dsp/mod.rs: GraphFun, GraphAtomData"]}
{"id": "C69", "title": "Succeeding block edits do exactly what they say", "statement": "When a block edit reports success, reading the program back shows exactly the announced change and nothing else. Instanciate: a block as its type describes, labelled as asked for (or with the name of its type), with an id no block has and new areas of its own, is at the asked cell. Remove: the block that covers the cell is gone. Move: the block that covers the cell is at the target, the same as before; a block grabbed below its top row arrives with that row at the target, but not above row 0. Clone: a copy with a new id and new empty areas is at the target, placed likewise, and the original is where it was. Chain move: all blocks connected to the block at the cell, and only these, have moved by one common offset to the target area; the offset is the wanted one, or else the first of a fixed list of offsets around it at which they meet no other block; in another area the wanted offset is cut so that no block gets left of column 0 or above row 0. Split: the blocks of the chain right of the column are one column further right, every connection of the chain across the column has got a filler with a new id, except for the one in the row of the cell, and all other blocks are where they were.", "quantifier": "Every program reached by any sequence of edits (with block types of at least one row and fillers of one row), every edit and argument for which the call reports success. The cut of a chain move is stated for chains whose first column and row are at most 100000000.", "why_tests_cant": "Programs, chains and positions are unbounded; a test looks at a few.", "anchors": ["src/wblockdsp/language.rs: BlockFun::{instanciate_at,remove_at,move_block_from_to,clone_block_from_to,move_block_chain_from_to,split_block_chain_after}, BlockChain"]}
{"id": "C70", "title": "Recalculated area sizes have room for everything that is shown", "statement": "After the area sizes of a block program were recalculated, or a snapshot was loaded, every area that is shown (the root and all areas nested in blocks of shown areas) has room for all cells of its blocks and for the areas nested in them: the first one below the header row of its block, the second one below the first. Areas that shrink to their content have the least such size, other areas do not get smaller, and not larger than that either unless they were. The blocks stay as they are. Whatever edits were made, an area is inside at most one block and the root is inside none.", "quantifier": "Every program reached by any sequence of edits (block types of at least one row, fillers of one row without areas, clones into existing areas), every snapshot saved on the way, every nesting depth.", "why_tests_cant": "Sizes are carried from the leaves up through any nesting, and the areas come from any history of edits; a test sees a few nestings.", "anchors": ["src/wblockdsp/language.rs: BlockFun::{recalculate_area_sizes,load_snapshot,area_size}, BlockArea::resolve_size"]}
{"id": "C71", "title": "The Code node runs the program that was accepted last on every frame", "statement": "In every block a Code node first takes all programs that were accepted for it since the last block, in their order, and then gives each frame of its six inputs to the program, one after the other, each in the state that the earlier frames left. The return value appears at output sig, the two signals at sig1 and sig2, in the same frame, and frames beyond the block are left alone. The LEDs show the return value and first signal of the last frame. No accepted program is lost, taken twice or overtaken. As long as no program arrives, cutting a block in two at any frame changes nothing. A copy of a node is not connected and leaves its outputs as they are.", "quantifier": "Every engine (any state machine), every history of accepted programs, resets, sample rates and blocks of any length, all input signals.", "why_tests_cant": "Programs arrive from another thread at any time between blocks of any length, and the state of the program is carried through all of them.", "anchors": ["src/dsp/node_code.rs: Code::{new,clone,set_sample_rate,reset,process}"]}
{"id": "C72", "title": "Notes are played in the equal temperament", "statement": "Key k sounds with 440 * 2^((k - 69) / 12) Hz, whichever way it comes: a MIDI note through MidiP, a cell of a note column of a pattern, or an input freq that is set to this frequency. Detune inputs of s semitones, at MidiP, at the oscillator or at both, move it by s keys. Twelve keys are an octave, key 69 has 440 Hz, and higher keys sound higher.", "quantifier": "All keys within ten octaves of 440 Hz, with all fractional detunes, all note events in all blocks, all pattern histories.", "why_tests_cant": "Two sources and the knobs calculate the pitch by separate formulas, oscillators read it by a third; that they agree is a law over all keys and detunes.", "anchors": ["src/dsp/node_midip.rs: MidiP::process", "src/dsp/tracker/pattern.rs: PatternData::sync_out_data", "src/dsp/mod.rs: n_pit, d_pit, n_det, denorm_offs"]}
{"id": "C73", "title": "Frontend and nodes share the scope and the tracker of an instance", "statement": "All scope handles of an instance, whether fetched by the frontend or by the Scope node, before or after each other, show the same contents: what was written by any of them, and nothing that was written to another scope. All pattern handles of a tracker, its sequencer and the check for updates work on one tracker, which is not changed by anything done to another one; edits and updates from before the first sequencer was made reach it. A tracker exists exactly for the instances whose pattern or sequencer was asked for; checking for updates makes none.", "quantifier": "All histories of fetching handles for any instances, calls on the handles, checks, sequencers and updates, in any order.", "why_tests_cant": "The objects are made by whoever comes first and then shared; that no order of calls replaces or mixes them up is a statement over all histories.", "anchors": ["src/global.rs: NodeGlobalData::get_scope_handle, get_pattern_data, has_tracker, get_tracker_backend, check_pattern_data", "src/dsp/tracker/mod.rs: Tracker::get_backend", "src/matrix.rs: Matrix::get_pattern_data, get_scope_handle"]}
