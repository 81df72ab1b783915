# A Rocq (Coq 8.16.1) model of HexoDSP

The sources in `/repo` are modelled function by function as total Gallina functions.
Nothing is executed from `/repo`; the tie between model and code is the citation
(file and lines) next to each definition.

## Layout of /verif/rocq/theories

| files | content |
| --- | --- |
| `Base*.v` | list / map helpers |
| `M_*.v`  | models (definitions only, each citing /repo) |
| `S_*.v`  | specifications: short definitions, independent of the model's helpers |
| `L_*.v`  | proofs (lemmas) |
| `P_*.v`  | property theorems with `Print Assumptions`, refutations of what is false in the code (`…_refuted`), and examples that meet the hypotheses |

Conventions: a Rust panic is an explicit error value (`None`, or a `Panic` constructor);
`&mut self` methods return the new state; loops are structural recursion, folds, or recursion on
fuel whose exhaustion is an explicit error value excluded by the theorem; `HashMap`s are association lists;
where the iteration order of a hash map is observable, the order is a universally quantified parameter.

## Plan per property

| id | model | proof |
| --- | --- | --- |
| C01 | `NodeGraphOrdering` with its real arrays-as-lists, index map, Kahn queue | loop invariant of Kahn's algorithm: out list = visited nodes, in-degree = number of unvisited predecessors |
| C02 | same | counting argument: if no progress, an infinite predecessor chain in the rest gives a cycle |
| C03 | same, DFS with visited flags | reachability invariant; fuel bound for termination; diamond witness for `None` |
| C04 | `CellDir` over Z/nat | case analysis on direction and column parity |
| C05 | `path_from_to` with squared distances | greedy step strictly decreases a distance measure |
| C06 | matrix as `list cell`, index `x*h+y`, u8 positions | index injectivity |
| C07 | `update_graph_ordering_and_edges` | scan-order induction |
| C08 | `check` | equivalence with a pairwise specification |
| C09 | `change_matrix` state machine | for all closures (functions on the cell list); staleness of used-input info as refutation |
| C10 | `get_connections` | symmetry from C04 |
| C11 | `rebuild_node_ports` | induction over node list |
| C12 | `NodeProg` building and `assign_outputs` | invariants over append_op/append_edge |
| C13 | block execution with abstract node functions | topological induction |
| C14, C15 | parameter store | invariants over operation lists |
| C16 | `unused_instance_node_id`, `create_intermediate_nodes` | induction |
| C17 | `Smoother` over R/Q and bit exact end value | induction over samples |
| C18 | message queue, executor with its smoothers, frontend tables | invariant over all interleavings within the limits: the values that the running program will have once its queue and smoothers are done are those of the frontend; refutation witnesses outside of the limits; for modulation amounts a second invariant ties the modulator table of the frontend to the amounts of the running program (S_Tuned, L_Tuned) |
| C19 | buffers as ids with an ownership multiset | permutation invariant |
| C20 | `EventWindowing` | simulation against "filter by time window" |
| C21–C23 | pattern data, tracker front/back end | refinement to a function (row,col) -> value |
| C24, C26 | JSON trees, repr types | round trip by structural induction |
| C25 | file system as map from names to contents with a crash point | case analysis; rename is assumed atomic |
| C27 | ring buffer with pointers | simulation with a delayed stream; for every history an invariant of the ring: each place holds the newest sample of its number up to multiples of the delay |
| C28 | table generated from `node_list` | finite sweep lifted with `forallb_forall` |
| C29 | rings as lists | multiset invariant |
| C30 | filters over an ordered field | induction |
| C31 | `SynthConstructor` with the builders of `build.rs` and arbitrary iteration order | invariant of the constructor: its tables hold the last word of everything said (`S_Synth`); the order by C01, the connections and values by the lemmas of C12 and C14 |
| C32 | `M_Block`: areas as maps from positions to blocks with the origin map, all edit calls, snapshots | invariant over every history of calls; ids counted in all areas; termination of sub-area searches by a rank on areas |
| C33 | same | case analysis of each call from the invariant |
| C34 | `chain_at`, `retrieve_block_chain_at` | breadth first search computes the reflexive transitive closure of the connection relation |
| C35 | JSON trees of snapshots | structural round trip, invariant of `M_Block` |
| C36 | tree generation and compiler | simulation of generated code against the wiring |
| C37 | `shift_port` | list algebra: swap with the next row, rotation at the last |
| C38 | chain builder | invariant of the calls that describe a chain, then induction over the links; wrong-instance witnesses |
| C39, C40 | scope, log rings | induction |
| C41, C42 | scales over R | field/lra |
| C43–C45 | node state machines | invariants |
| C47 | `col_gate_at_phase` with the cached random numbers and any generator, all six columns of the sequencer node over blocks | the frames of a column form a trace that only its own number decides; induction over traces |
| C44, C48 | the whole MidiP node with its three gate modes, and the MidiCC node; the trigger, gate and slew generators of `synfx-dsp` are parameters | the outputs are equal to generators of their own, fed with the events of each frame; induction over frames |
| C49 | `next_sample`, `play` and `process` of the sample player over blocks; the interpolation, the arithmetic of the ramps and the rounding of the section bounds are parameters, the phase is a rational number | the blocks are equal to a run over single frames with the section of each frame; induction over the frames after a trigger |
| C50 | the handle table of the global data, the hand-over of the buffers on construction, and the triple buffer (an external crate, modelled by its documented steps: store, publish, look, exchange), as single steps of two threads; the user's code is a parameter | simulation: every execution is a history of calls that happen at one moment, with an invariant per buffer about the slots and the published code; the claims about the histories by induction |
| C51 | the nodes Inp, Amp, Mix3 and Out with the audio device as state, put into the engine model of C12/C13/C18; all other nodes are a parameter that cannot touch the device; float operations and denormalisation are parameters | invariant over the interleavings: the last program in the queue, or else the running one, belongs to the published board; the signals from the dataflow theorem of C13 |
| C52 | the sample library, its use by `set_param`, and the error list; the WAV reader is external: a file is a header and a sequence of samples some of which give an error, and may change between the calls; the conversions to floats are parameters | the loop over the samples by its elements; histories by invariants |
| C53 | the matrix of C16 with its properties, generation counter and observer: each call also gives the calls of the observer; an observer's copy is a specification that is refreshed after each call with what it was told | case analysis of the calls over the invariant of reachable matrices, histories by induction; changes of modulation amounts are the exception: an amount changed to another tells nothing, and the `sync` inside runs without the observer (both refuted with witnesses), a failing one changes the amount but not the generation (refuted) |
| C54 | both threads as one step function over a schedule: the message queue and the event ring with their capacities, the injected events, one push or poll per step; the blocks are those of C20 | invariants over schedules by induction: what is told and on its way is a sublist of what was delivered, equal while the ring never fills; injected events are cut into one part per block. Lost events of a full ring, of more than 64 injections and the reversed order are shown with witnesses |
| C55 | the queries of a cell over the grid of C06, the setters by name over the node table of C28 | each loop over the directions against the geometric neighbourhood of C05 and the connections of C07; growing a patch combines them with placing. Empty cells with ports, cells read from a new matrix by reference and names on the wrong side are shown with witnesses |
| C56 | all rounding macros over R on top of the scales of C41, and the columns of the node list for rounding and steps | rounding to multiples is monotone, idempotent and near; a list of (bound, step) pairs inherits this if the bounds are on both grids (induction); clamping and the scale pairs of C41 carry it to normalised values; the node list is checked entry by entry. Coarse then fine fails for frequencies (1760 Hz becomes 1800 Hz), 0.1 ms of allp and comb becomes 0.2 ms: witnesses |
| C57 | the whole process function over exact times and integer sample values, the trigger detector as a parameter | invariant of a recording: the time kept in the node is the frames minus the points written, so point n is written with frame ceil(n * frames per point); the widest pair is that of the frames since the last point; the pieces of the free running scope by induction over the frames; a modulus argument for the last piece per position. The first point of a new node and a change from a long time to a short one and back show values no frame of the recording had: witnesses |
| C58 | the engine model with numbered programs, one triple buffer (three slots and a dirty flag) per program, the shared LED and phase values and a log of the blocks | invariant with a ghost table of the node list and the operations of every program: slots of a triple buffer are distinct and have zeros for nodes that do not run, the newest readable slot is the latest published block of that program, program numbers grow along the queue, so the program held by the frontend runs or has not started yet. Without an update after an upload, and for LEDs before the first block, values of deleted nodes show; over 256 nodes panic: witnesses |
| C59 | the table of block programs and code engines with the checked generation, on top of the models of the block editor (C32) and of the compiler (C36) | an invariant over histories: equal generations mean the same blocks up to sizes and added empty areas, on which compiling does not depend; what was sent last is the compilation of a program with the checked generation |
| C60 | executor of M_Exec with node functions given frame by frame (S_Split) | a block is a chain of frames with a unique result (from the dataflow equations of C13 and the smoother's values), chains of equal length from the same state agree |
| C61 | M_RndWk: the node over rational numbers with a rounding function after every operation | error analysis of clamp and reflection, invariant over the frames |
| C62 | M_Filt: the three nodes with the filter functions of synfx_dsp as parameters | simulation by reference filters that set everything in every frame; invariants of the caches |
| C63 | M_Osc: the three nodes; Sin over any number type, instances: rationals with a rounding, and single precision of the standard library | invariant of the phase, induction over the rounds of the loop; the endless loop by a fixed point of the addition |
| C64 | M_Run: the recording loop over any engine, with the event windows of M_Midi | induction over the blocks with C20_delivery |
| C65 | M_Fx: the block loops of the nodes with the objects of synfx_dsp as arbitrary state machines, plugged into the nodes of M_Path | C51's dataflow of a block, plus a lemma on loops that write outputs frame by frame |
| C66 | M_Gen: the frames of the oscillators over an arbitrary number type, plugged into the nodes of M_Path | C51's dataflow of a block as for C65; the laws of pitch and string with exact rationals, by induction over frames |
| C67 | M_Rand: the loops of `get_node_ids` and `get_rand_node_id` over the node list, the random number generator as an arbitrary sequence | induction over the rows and over the draws; the fixed table is evaluated for the excluded names only |
| C68 | M_Draw: graph functions of the nodes, with the parameter lookups by name | refinement of each graph to the frames of the node's own core; order arguments over Q for AD |
| C69 | M_Block | read-back functions before and after each succeeding edit; loads as permutations of moved blocks, first fitting offset by induction over the list of offsets |
| C70 | M_Block, `bf_area_size` | invariant of the work list (an area waits, is settled, or has a child not yet visited), induction over the rank of the nesting; that areas are owned once by induction over the history, from C69 |
| C71 | M_CodeN, with the engine as an arbitrary state machine | induction over the frames of a block and over the history |
| C72 | M_Pitch, in real numbers, on M_MidiN and M_Track | from C44 and C23 with the formulas; laws of powers |
| C73 | M_Global: tables from instances to objects on a heap, on M_Scope and M_Track; the handles given out are kept | invariant: the table is injective, every handle is the entry of its instance, every object is the result of the calls of its instance |

C46 (placing a cluster) uses `M_Grid` with the claims of C06.

## Trusted base

* The Coq 8.16.1 kernel (with its VM for `vm_compute`; `coqchk` rechecks without the VM).
* `Print Assumptions` stands after each theorem in the `P_*.v` files. It says `Closed under the global context` for all of them except
  `C41_*`, `C56_*`, `C72_*` and `C28_defaults*`, which are about real numbers and use these axioms of Coq's standard library of reals, and no others:
  `ClassicalDedekindReals.sig_not_dec`, `ClassicalDedekindReals.sig_forall_dec`,
  `FunctionalExtensionality.functional_extensionality_dep`, `Classical_Prop.classic`.
* No axioms, `Admitted`, `Variable`s or `Hypothesis` of our own, no disabled kernel checks, no functors.
* Libraries: Coq standard library and std++ (which loads ssreflect's `under` machinery). They add no axioms to the theorems but the four above.
* The reading of the Rust sources: each definition cites the file and lines it models. Nothing checks this tie mechanically.
* rustc, the operating system, and the crates `synfx-dsp`, `synfx-dsp-jit`, `ringbuf`, `triple_buffer`, `serde_json`, `num-complex`:
  their documented behaviour is assumed where the model uses it (a bounded queue is a bounded list, a triple buffer holds the last
  published value, JSON text parses to the tree that was printed).

JSON: a tree is printed and read by `serde_json`; `C24_text` holds for every printer and parser that round trip on trees, which is
not proved of `serde_json`. Files: `rename` is atomic, an interrupted write leaves a prefix; loss of power, `fsync` and the UTF-8 check of the
reader are not modelled.

## What is modelled

| source | model | remarks |
| --- | --- | --- |
| `src/cell_dir.rs` | `M_Dir` | all functions; positions as integers |
| `src/nodes/node_graph_ordering.rs` | `M_Graph` | all; hash maps as association lists |
| `src/matrix.rs` | `M_Grid`, `M_Layout`, `M_Sync`, `M_Obs`, `M_Event`, `M_Near` | cells and their queries, grid, check, edges, transactions, sync, clear, monitor, parameter calls, observers, properties and generation, MIDI events to observers; not: texts of whole cells |
| `src/dsp/satom.rs`, parts of `src/dsp/mod.rs` | `M_Atom`, `M_Prog`, `M_Nodes`, `M_Norm`, `M_Knob` | atoms, port buffers, the node table with names, scales and rounding; not the formatting of values |
| `src/nodes/node_prog.rs`, `node_conf.rs`, `node_exec.rs`, `mod.rs`, `drop_thread.rs`, `src/util.rs` (Smoother) | `M_Prog`, `M_Conf`, `M_Exec`, `M_Engine` | program building, parameter store, uploads, message handling, block execution; the DSP of a node is an arbitrary function of its inputs |
| `src/nodes/midi.rs`, `src/dsp/node_midip.rs`, `src/dsp/node_midicc.rs` | `M_Midi`, `M_MidiN` | event windows, all gate modes, controllers; the LED of MidiP is left out, its pitch is in `M_Pitch` |
| `src/dsp/tracker/*`, `src/dsp/node_tseq.rs` | `M_Track`, `M_Seq` | pattern, editing, transport to the sequencer, playback of all column types; the clock and the random number generator of `synfx-dsp` are parameters |
| `src/shared_feedback.rs`, `src/dsp/node_fbwr_fbrd.rs` | `M_Fb` | |
| `src/monitor.rs`, `src/scope_handle.rs`, `src/dsp/node_scope.rs`, `src/log.rs`, `src/nodes/*_filter.rs` | `M_Mon`, `M_Scope`, `M_ScopeN`, `M_Log`, `M_Vis` | |
| `src/dsp/node_smap.rs`, `node_map.rs`, `node_mux9.rs` | `M_Map`, `M_Mux` | |
| `src/dsp/node_sampl.rs` | `M_Sampl` | all but the LED; trigger detection enters as a flag per frame; subtractions below zero are panics |
| `src/dsp/node_rust.rs` | `M_Dyn` | the hand-over of the user code; the auxiliary inputs and LED values that the code may use are part of its parameter; `triple_buffer` is external and modelled by its documented operations |
| `src/dsp/node_inp.rs`, `node_amp.rs`, `node_mix3.rs`, `node_out.rs` | `M_Path` | `process` without the LED values |
| `src/sample_lib.rs` | `M_Lib` | all; `hound` is external, files without a channel (which `hound` rejects) are excluded |
| `src/global.rs` | `M_Global`, `M_Dyn`, `M_Fb`, `M_Track`, `M_Scope`, `M_Code` | the dynamic node handles and the check of block functions; the tables of scopes and trackers are in `M_Global`; that of the feedback buffers is of the same kind and appears only as its objects; the code engine itself (another crate) is represented by the programs it accepted; that `get_backend` of a new code node cuts the old connection is not modelled |
| `src/wblockdsp/language.rs` | `M_Block` | editor: areas, blocks, chains, all edit calls, snapshots |
| `src/wblockdsp/compiler.rs`, `definition.rs`, `generate_tree` | `M_Comp` | all; the nodes of the DSP library are a parameter with names and ports. The generated code is run by the semantics in `S_Comp`, which is our reading of `synfx-dsp-jit` |
| `src/matrix_repr.rs`, `serialize`/`deserialize` of snapshots | `M_Json`, `M_Repr` | descriptions and their JSON trees |
| `src/synth_constructor.rs`, `src/build.rs` | `M_Synth` | all but the led and phase values and dynamic nodes; the builder methods that `build.rs` generates per port are calls with the number of the port |
| `src/chain_builder.rs` | `M_Chain` | all; positions are integers that may go below zero instead of wrapping |
| `write_to_file` | `M_Save` | system calls with crash points |
| `Matrix::to_repr`, `from_repr`, `Cell::to_repr`, `from_repr` | `M_Patch` | trackers and block functions that `to_repr` allocates as a side effect are left out; a sample path becomes what the loader makes of it |
| `src/nodes/node_conf.rs` (output, LED and phase feedback), `src/nodes/node_prog.rs` (feedback), triple_buffer | `M_Feed` | steps of the audio thread are atomic between taking messages, computing and publishing; LED and phase values are set one program run at a time |
| `src/dsp/node_rndwk.rs` | `M_RndWk` | all but the LED; numbers are rationals with an arbitrary rounding of `f32` accuracy; NaN and infinities are left out; trigger detection is a flag per frame |
| `src/dsp/node_sfilter.rs`, `node_biqfilt.rs`, `node_fvafilt.rs` | `M_Filt` | all but the LEDs and, for FVaFilt, changes of the sample rate; the filters of `synfx_dsp` are arbitrary functions; `FilterParams` is shared state; NaN and infinities are left out |
| `src/dsp/node_sin.rs`, `node_formfm.rs`, `node_noise.rs` | `M_Osc` | all but the LEDs; FormFM with exact arithmetic; `fast_sin`, `cos` and `Rng` are parameters; NaN and infinities are left out |
| `src/nodes/node_exec.rs` (`test_run_input`, `test_run`) | `M_Run` | the loop with slices of the buffers; the engine is a parameter; `dummy_run` and sleeping are left out |
| `src/dsp/node_pverb.rs`, `node_delay.rs`, `node_comb.rs`, `node_allp.rs`, `node_ad.rs`, `node_adsr.rs`, `node_tslfo.rs`, `node_ext.rs`, `node_quant.rs`, `node_cqnt.rs`, `node_test.rs` | `M_Fx` | `process` of all, without the LEDs; the objects of `synfx_dsp` are arbitrary state machines; `reset`, `set_sample_rate` and new nodes after `clear` are left out |
| `src/dsp/node_bosc.rs`, `node_vosc.rs`, `node_bowstri.rs` | `M_Gen` | `process` of all with the LEDs; the oscillators, filters and delay lines of `synfx_dsp` are arbitrary state machines; `reset` and new nodes after `clear` are left out; blocks of no frames (a panic with overflow checks in BOsc and VOsc) are left out |
| `src/dsp/mod.rs` (1786-1861, 2202-2224, 2363) | `M_Rand` | `get_node_ids`, `get_rand_node_id`, `init_phase` (exactly, with an arbitrary result of `rand_01`), `ui_category` |
| `graph_fun` in `src/dsp/node_ad.rs`, `node_adsr.rs`, `node_bosc.rs`, `node_vosc.rs`, `node_tslfo.rs`, `node_test.rs` | `M_Draw` | oscillators, envelope and LFO of `synfx_dsp` are arbitrary machines; Ad in exact arithmetic; that the other nodes offer no graph is not modelled |
| src/wblockdsp/language.rs:1775-1777 | `M_Size` | `area_size` |
| `src/dsp/node_code.rs` | `M_CodeN` | all; the engine of `synfx-dsp-jit` is an arbitrary state machine with an unbounded queue of accepted programs, `get_backend` for a further node of the same instance is left out |
| src/dsp/node_midip.rs:187-190, src/dsp/tracker/pattern.rs:193-198, `denorm_offs` | `M_Pitch` | real numbers; BowStri, which corrects its pitch, is not among the oscillators |

Numbers: `f32` is a bit pattern with arithmetic as a parameter (`M_Conf`), an integer multiple of 2^-149 where only comparisons matter
(`M_Mon`, `M_Vis`), a rational or real where a law of exact arithmetic is stated, and `SpecFloat` single precision where the rounding matters
(`M_Map`). `usize`/`i64` do not overflow unless a definition says so; `u8`/`u16` truncations are modelled.
Threads: interleavings of atomic steps (one message, one block, one push or pop); the memory model below is that of the lock free crates.

## What is not modelled

The objects of `synfx_dsp` inside the nodes (filters, reverb, delay lines, envelopes, random numbers), the JIT (`synfx-dsp-jit`), the WAV reader (`hound`), `unsync_float_buf.rs` (atomics), `dyn` dispatch and documentation tables.
Real-time behaviour (latency, priority inversion, lock contention) and sound quality cannot be expressed in these models.

## Findings

Statements that are false in the code are proved false of the model (`…_refuted`), and listed in the notes of `MANIFEST.json`. In short:

* Graph: more than 64 targets of one node panic; `has_path` says "no answer" on diamonds; more than 255 program nodes wrap the index.
* Matrix: positions are truncated to 8 bits beyond 256 rows or columns; `sync` does not look for doubly used inputs; the used-input report is
  stale after a rejected transaction; nested transactions lose the saved layout; with all 256 instances used the search for a free one does not end;
  the LED buffer index of instance 256 and more panics.
* Cells: a cell read with `get` from a new matrix claims position (0, 0); empty cells with ports count as connected; "dangling ports" include
  directions without a port; `set_input_by_name` towards an output edge sets an output.
* Parameters: an overflowing queue drops uploads; more than 40 parameters changed in one block are dropped; smoothing at the moment of a clear panics.
* Synth constructor: circular builders overflow the stack instead of giving the error for cycles; a graph that was rejected as cyclic makes all
  later uploads fail until `clear`; `update_params` silently ignores new inputs.
* Tracker: a change of the number of rows reaches only column 0; edits before the first row count are lost; an overflow drops the last edit;
  a second sequencer of the same tracker sees nothing; texts are stale after loading; loading more than 256 rows panics, in the audio thread too;
  a gate row that alone is left to chance decides once and for all; gate cells of four digits are silent.
* MIDI: events injected together come out reversed; more than 64 of them, or more than 512 that the frontend has not polled, are lost; more than 512 notes underflow; two note events of a channel in one frame break the gate;
  with the gate mode Gate Len a release one frame before a new note suppresses the pause; of two outputs with the same controller only the first follows it,
  and `set_sample_rate` of MidiCC does nothing, so its slew limiters keep the default rate (read, not modelled).
* Sample player: with the ramps against clicks it subtracts below zero (a panic with overflow checks) when it plays faster than recorded or when the length
  is modulated; after the end of a one shot comes one more sample from its start; a step of exactly the length of the part never ends.
* Feedback delay: the first sample is lost; with the writer first there is no delay; the delay assumes 44100 Hz.
* Log: messages from 511 bytes merge, over 512 panic, an interrupted `log_buf` loses its message.
* Monitor: windows beyond ±100 are clipped. Visual filter: ignores values after an even number of triggers in a window.
* Nodes: `param_steps` mixes up its pair; the input name table is wrong for atoms; the atoms of `smap` are out of order; `pverb` has a filter default of 0 Hz.
* Mapper: inputs below the range fold back, a NaN bound panics; the simple mapper can overshoot by one rounding. Multiplexer: input count setting 255 panics.
* Blocks: moving to an unknown area deletes the block; a failing clone leaves areas behind; a clone can be put into its own new area, and then
  sub-area searches do not end; fillers with more than one row can overlap, fillers with areas make the size calculation go on forever;
  a row out of range panics in `shift_port`; blocks without rows can be put upon others.
* Block compiler: with swapped inputs behind a "->2" a temporary variable is read before it is assigned; port names are cut to two bytes, so
  nodes with inputs "in1" and "in2" get the first input twice; a program without an open output reads an unassigned result; "if" never
  compiles; "π" and "2π" become calls of nodes of that name.
* Descriptions: a NaN parameter is read back as 0, a NaN atom cannot be read; micro samples of other than 8 values are cut off or panic; loaded audio
  data is dropped; a port of an atom is lost; a `VERSION` that is no 64 bit integer passes as an old version; a pattern with more than 256 rows or
  6 columns panics when it is loaded.
* Loading a patch: a pattern or block function that is empty in the saved patch keeps its contents in the target; a pattern of which only the number
  of rows was set is not saved; a modulation amount of a parameter that never got a value is not saved.
* Saving: `name~` is overwritten whatever it is, and if both names are links to one file the old contents are lost at once; there is no `fsync`.
* Chain builder: parameters are set on the nodes that were named, not on the instances that were placed, so with an instance in use another node
  on the matrix is changed; further nodes of a kind are numbered on without asking whether the instance is in use; setting a parameter without a node
  panics; a second `place` after an error places the incomplete chain.
* `check_code` notes the new generation before compiling, so an error is reported only once.
* Knobs: coarse rounding makes 0.2 ms of the shortest time 0.1 ms of `allp` and `comb`; coarsely rounded frequencies are moved by the fine rounding.
* Scope: the first point of a new node includes 0; after a short time range the first point includes values from before; with a short time range the picture covers up to twice the time that was set, because the copies per frame are cut off.
* Feedback: after Matrix::clear and sync, out_fb_for gives values of deleted nodes until the next update_output_feedback; led_value_for and phase_value_for of a new node give those of a deleted node until its first block; with more than 256 nodes they panic.
* **C59** `check_code` stores the generation before it compiles, so an error is answered by one check only: the next check answers `Ok` although the program does not compile and the old code runs (`C59_error_once_refuted`). `retrieve_block_chain_at` with removal, and a move to an area that does not exist, change the program without a new generation, so the removed blocks go on running after any number of successful checks (`C59_retrieve_refuted`, `C59_lost_refuted`).
* BiqFilt (freq, q, gain), Sampl (declick time) and Scope read parameters in the first frame of a block only, so the sound of a moving parameter depends on the host's block length (C60_once_per_block_refuted).
* Random walker: a min/max range narrower than 0.0001 is left by up to 0.0001 (C61_narrow_refuted).
* FVaFilt: a ladder mode that is changed while SVF or Sallen-Key is selected is not used when the ladder is selected later, until the mode changes again (C62_ladder_mode_refuted). BiqFilt: an order setting above 3 panics in the audio thread (C62_order_refuted). SFilter: an unknown type leaves the output buffer unwritten (C62_unknown_type_refuted).
* Sin: a phase modulation of -2^25 (from `set_param` or any signal) makes the audio thread loop forever, because adding 1.0 no longer changes the phase (C63_sin_hang_refuted).
* Effects: the external parameter nodes ignore `set_sample_rate`, so that their slew time is that of the default rate (read, not modelled); the Test node triggers only once in its life.
* Oscillators: the knob of the bow position reaches only from the middle of the string to the bridge, since its range is 0 to 1 while the string takes -1 to 1.
* Random nodes: asking for useful nodes can give empty ones even for a single node, when all hundred random numbers select a node that is left out; more than a hundred nodes are never found (`C67_useful_refuted`, `C67_many_refuted`).
