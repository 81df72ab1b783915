-Q theories Verif
theories/Base.v
theories/M_Graph.v
theories/S_Graph.v
theories/L_Graph.v
theories/P_Graph.v
theories/M_Dir.v
theories/S_Dir.v
theories/L_Dir.v
theories/P_Dir.v
theories/M_Grid.v
theories/S_Grid.v
theories/L_Grid.v
theories/M_Layout.v
theories/S_Layout.v
theories/L_Layout.v
theories/P_Grid.v
theories/M_Atom.v
theories/M_Prog.v
theories/M_Conf.v
theories/S_Conf.v
theories/L_Conf.v
theories/L_Conf2.v
theories/L_Conf3.v
theories/P_Conf.v
theories/M_Exec.v
theories/M_Sync.v
theories/M_Engine.v
theories/S_Sync.v
theories/L_Sync.v
theories/P_Sync.v
theories/L_Prog.v
theories/L_Build.v
theories/L_Fill.v
theories/S_Prog.v
theories/L_Wire.v
theories/P_Prog.v
theories/S_Own.v
theories/L_Own.v
theories/L_Own2.v
theories/L_Own3.v
theories/P_Own.v
theories/S_Flow.v
theories/L_Flow.v
theories/L_Flow2.v
theories/P_Flow.v
theories/S_Smooth.v
theories/P_Smooth.v
theories/M_Track.v
theories/S_Track.v
theories/L_Track.v
theories/L_Track2.v
theories/M_Seq.v
theories/S_Seq.v
theories/L_Seq.v
theories/P_Track.v
theories/S_Gate.v
theories/L_Gate.v
theories/P_Gate.v
theories/M_Midi.v
theories/S_Midi.v
theories/L_Midi.v
theories/P_Midi.v
theories/M_Fb.v
theories/S_Fb.v
theories/L_Fb.v
theories/P_Fb.v
theories/P_FbAll.v
theories/M_Scope.v
theories/S_Scope.v
theories/L_Scope.v
theories/P_Scope.v
theories/M_Vis.v
theories/S_Vis.v
theories/P_Vis.v
theories/M_Log.v
theories/S_Log.v
theories/P_Log.v
theories/M_Mon.v
theories/S_Mon.v
theories/L_Mon.v
theories/P_Mon.v
theories/M_Nodes.v
theories/S_Nodes.v
theories/P_Nodes.v
theories/M_Norm.v
theories/S_Norm.v
theories/P_Norm.v
theories/M_Map.v
theories/S_Map.v
theories/P_Map.v
theories/M_Mux.v
theories/S_Mux.v
theories/P_Mux.v
theories/M_Block.v
theories/S_Block.v
theories/L_Block.v
theories/L_Block2.v
theories/L_Block3.v
theories/L_Block4.v
theories/P_Block.v
theories/M_Json.v
theories/M_Repr.v
theories/S_Repr.v
theories/L_Repr.v
theories/P_Repr.v
theories/M_Save.v
theories/S_Save.v
theories/P_Save.v
theories/M_Patch.v
theories/S_Patch.v
theories/L_Patch.v
theories/L_Patch2.v
theories/P_Patch.v
theories/M_Comp.v
theories/S_Comp.v
theories/L_Comp.v
theories/L_Comp2.v
theories/L_Comp3.v
theories/L_Comp4.v
theories/L_Comp5.v
theories/L_Comp6.v
theories/P_Comp.v
theories/M_Chain.v
theories/M_Synth.v
theories/S_Synth.v
theories/L_Synth.v
theories/L_Synth2.v
theories/L_Synth3.v
theories/L_Synth4.v
theories/L_Synth5.v
theories/L_Synth6.v
theories/L_Synth7.v
theories/P_Synth.v
theories/S_Chain.v
theories/L_Chain.v
theories/P_Chain.v
theories/S_Settle.v
theories/L_Settle.v
theories/L_Settle2.v
theories/L_Settle3.v
theories/L_Settle4.v
theories/L_Settle5.v
theories/L_Settle6.v
theories/P_Settle.v
theories/S_Tuned.v
theories/L_Tuned.v
theories/P_Tuned.v
theories/M_Dyn.v
theories/S_Dyn.v
theories/L_Dyn.v
theories/P_Dyn.v
theories/M_MidiN.v
theories/S_MidiN.v
theories/L_MidiN.v
theories/P_MidiN.v
theories/M_Sampl.v
theories/S_Sampl.v
theories/L_Sampl.v
theories/P_Sampl.v
theories/M_Path.v
theories/S_Path.v
theories/L_Path.v
theories/P_Path.v
theories/M_Lib.v
theories/S_Lib.v
theories/P_Lib.v
theories/M_Obs.v
theories/S_Obs.v
theories/L_Obs.v
theories/P_Obs.v
theories/M_Event.v
theories/S_Event.v
theories/L_Event.v
theories/P_Event.v
theories/M_Near.v
theories/S_Near.v
theories/L_Near.v
theories/P_Near.v
theories/M_Knob.v
theories/S_Knob.v
theories/L_Knob.v
theories/L_Knob2.v
theories/P_Knob.v
theories/M_ScopeN.v
theories/S_ScopeN.v
theories/L_ScopeN.v
theories/L_ScopeN2.v
theories/P_ScopeN.v
theories/M_Feed.v
theories/S_Feed.v
theories/L_Feed.v
theories/L_Feed2.v
theories/L_Feed3.v
theories/L_Feed4.v
theories/L_Feed5.v
theories/P_Feed.v
theories/M_Code.v
theories/S_Code.v
theories/L_Code.v
theories/P_Code.v
theories/S_Split.v
theories/L_Split.v
theories/L_Split2.v
theories/L_Split3.v
theories/P_Split.v
theories/M_RndWk.v
theories/S_RndWk.v
theories/L_RndWk.v
theories/P_RndWk.v
theories/M_Filt.v
theories/S_Filt.v
theories/L_Filt.v
theories/L_Filt2.v
theories/P_Filt.v
theories/M_Osc.v
theories/S_Osc.v
theories/L_Osc.v
theories/P_Osc.v
theories/M_Run.v
theories/S_Run.v
theories/P_Run.v
theories/M_Fx.v
theories/S_Fx.v
theories/L_Fx.v
theories/P_Fx.v
theories/M_Gen.v
theories/S_Gen.v
theories/P_Gen.v
theories/P_GenRun.v
theories/M_Rand.v
theories/S_Rand.v
theories/P_Rand.v
theories/M_Draw.v
theories/S_Draw.v
theories/P_Draw.v
theories/S_Edit.v
theories/P_Edit.v
theories/M_Size.v
theories/S_Size.v
theories/P_Size.v
theories/M_CodeN.v
theories/S_CodeN.v
theories/P_CodeN.v
theories/M_Pitch.v
theories/S_Pitch.v
theories/P_Pitch.v
theories/M_Global.v
theories/S_Global.v
theories/P_Global.v
