-Q theories Verif
theories/Base.v
theories/BaseLemmas.v
theories/CField.v
theories/Cplx.v
theories/CplxLemmas.v
theories/Model_Backend.v
theories/Model_Batch.v
theories/Model_Coeffs.v
theories/Model_Config.v
theories/Model_Detection.v
theories/Model_Dispatch.v
theories/Model_EpsGrid.v
theories/Model_FDTD.v
theories/Model_Fourier.v
theories/Model_Lattice.v
theories/Model_Layout.v
theories/Model_Logging.v
theories/Model_LossPlot.v
theories/Model_Losses.v
theories/Model_Materials.v
theories/Model_Modes.v
theories/Model_Networks.v
theories/Model_Output.v
theories/Model_Pipeline.v
theories/Model_Plots.v
theories/Model_Print.v
theories/Model_Queries.v
theories/Model_Register.v
theories/Model_Rounding.v
theories/Model_Runs.v
theories/Model_Soft.v
theories/Model_Stack.v
theories/Model_Start.v
theories/Model_TMM.v
theories/Model_TMM2.v
theories/Model_TMM3.v
theories/Model_TRCWA.v
theories/Model_Tables.v
theories/Model_Torch.v
theories/Model_Training.v
theories/Model_Units.v
theories/Model_Visualize.v
theories/Model_Waveforms.v
theories/Proof_Absorber.v
theories/Proof_Agree.v
theories/Proof_Agree2.v
theories/Proof_Agree3.v
theories/Proof_Agree4.v
theories/Proof_Backend.v
theories/Proof_Basis.v
theories/Proof_Basis2.v
theories/Proof_Batch.v
theories/Proof_Batch2.v
theories/Proof_Border.v
theories/Proof_Causal.v
theories/Proof_Causal2.v
theories/Proof_Causal3.v
theories/Proof_Cavity.v
theories/Proof_Coeffs.v
theories/Proof_Config.v
theories/Proof_Current.v
theories/Proof_Cut.v
theories/Proof_Cut2.v
theories/Proof_Detection.v
theories/Proof_Detection2.v
theories/Proof_Dispatch.v
theories/Proof_Dispatch2.v
theories/Proof_Emission.v
theories/Proof_Energy.v
theories/Proof_EpsGrid.v
theories/Proof_FDTD.v
theories/Proof_FFT.v
theories/Proof_Film.v
theories/Proof_FilmC.v
theories/Proof_Fourier.v
theories/Proof_Frames.v
theories/Proof_Harmonic.v
theories/Proof_Harmonic2.v
theories/Proof_Harmonic3.v
theories/Proof_Harmonic4.v
theories/Proof_Harmonic5.v
theories/Proof_Harmonic6.v
theories/Proof_Harmonic7.v
theories/Proof_Index.v
theories/Proof_Init.v
theories/Proof_Init2.v
theories/Proof_Lattice.v
theories/Proof_Lattice2.v
theories/Proof_Lattice3.v
theories/Proof_Lattice4.v
theories/Proof_Layout.v
theories/Proof_Layout2.v
theories/Proof_Linear.v
theories/Proof_Lists.v
theories/Proof_Logging.v
theories/Proof_LossPlot.v
theories/Proof_Losses.v
theories/Proof_Lossless.v
theories/Proof_Material.v
theories/Proof_Materials.v
theories/Proof_Members.v
theories/Proof_Modes.v
theories/Proof_Networks.v
theories/Proof_Networks2.v
theories/Proof_Networks3.v
theories/Proof_Orders.v
theories/Proof_Orders2.v
theories/Proof_Orders3.v
theories/Proof_Orders4.v
theories/Proof_Outer.v
theories/Proof_Output.v
theories/Proof_Output2.v
theories/Proof_PML.v
theories/Proof_Passive.v
theories/Proof_Passive2.v
theories/Proof_Passive3.v
theories/Proof_Pattern.v
theories/Proof_Pattern2.v
theories/Proof_Pipeline.v
theories/Proof_Pipeline2.v
theories/Proof_Pipeline3.v
theories/Proof_Pipeline4.v
theories/Proof_Pipeline5.v
theories/Proof_Pipeline6.v
theories/Proof_Pipeline7.v
theories/Proof_Pipeline8.v
theories/Proof_Placement.v
theories/Proof_Placement2.v
theories/Proof_Plane.v
theories/Proof_Plots.v
theories/Proof_Print.v
theories/Proof_Propagate.v
theories/Proof_Queries.v
theories/Proof_RT.v
theories/Proof_Readout.v
theories/Proof_Register.v
theories/Proof_Register2.v
theories/Proof_Reset.v
theories/Proof_Resolution.v
theories/Proof_Reverse.v
theories/Proof_Rounding.v
theories/Proof_Rounding2.v
theories/Proof_Rounding3.v
theories/Proof_Rows.v
theories/Proof_Rows2.v
theories/Proof_Runs.v
theories/Proof_Scale.v
theories/Proof_Signal.v
theories/Proof_Slab.v
theories/Proof_Slab2.v
theories/Proof_Smatrix.v
theories/Proof_Soft.v
theories/Proof_Spectrum.v
theories/Proof_Spectrum2.v
theories/Proof_Spectrum3.v
theories/Proof_Sqrt.v
theories/Proof_Stack.v
theories/Proof_Start.v
theories/Proof_Start2.v
theories/Proof_Steady.v
theories/Proof_Steady2.v
theories/Proof_Steady3.v
theories/Proof_Steady4.v
theories/Proof_Steps.v
theories/Proof_Symmetry.v
theories/Proof_Symmetry2.v
theories/Proof_Symmetry3.v
theories/Proof_Symmetry4.v
theories/Proof_TMM.v
theories/Proof_TMM10.v
theories/Proof_TMM11.v
theories/Proof_TMM12.v
theories/Proof_TMM13.v
theories/Proof_TMM14.v
theories/Proof_TMM15.v
theories/Proof_TMM16.v
theories/Proof_TMM17.v
theories/Proof_TMM18.v
theories/Proof_TMM19.v
theories/Proof_TMM2.v
theories/Proof_TMM20.v
theories/Proof_TMM21.v
theories/Proof_TMM22.v
theories/Proof_TMM23.v
theories/Proof_TMM24.v
theories/Proof_TMM25.v
theories/Proof_TMM26.v
theories/Proof_TMM27.v
theories/Proof_TMM28.v
theories/Proof_TMM29.v
theories/Proof_TMM3.v
theories/Proof_TMM30.v
theories/Proof_TMM31.v
theories/Proof_TMM32.v
theories/Proof_TMM4.v
theories/Proof_TMM5.v
theories/Proof_TMM6.v
theories/Proof_TMM7.v
theories/Proof_TMM8.v
theories/Proof_TMM9.v
theories/Proof_TRCWA.v
theories/Proof_TRCWA2.v
theories/Proof_Tables.v
theories/Proof_Tables2.v
theories/Proof_Torch.v
theories/Proof_Torch2.v
theories/Proof_Torch3.v
theories/Proof_Torus.v
theories/Proof_Total.v
theories/Proof_Total2.v
theories/Proof_Training.v
theories/Proof_Twin.v
theories/Proof_Twin2.v
theories/Proof_Twin3.v
theories/Proof_Units.v
theories/Proof_Vacuum.v
theories/Proof_Visualize.v
theories/Proof_Visualize2.v
theories/Proof_Visualize3.v
theories/Proof_Visualize4.v
theories/Proof_Wave.v
theories/Proof_Wave2.v
theories/Proof_Wave3.v
theories/Proof_Waveforms.v
theories/Proof_Window.v
theories/Props_Absorber.v
theories/Props_Agree.v
theories/Props_Backend.v
theories/Props_Basis.v
theories/Props_Batch.v
theories/Props_Causal.v
theories/Props_Coeffs.v
theories/Props_Config.v
theories/Props_Cut.v
theories/Props_Detection.v
theories/Props_Dispatch.v
theories/Props_EpsGrid.v
theories/Props_FDTD.v
theories/Props_FFT.v
theories/Props_Fourier.v
theories/Props_Frames.v
theories/Props_Harmonic.v
theories/Props_Lattice.v
theories/Props_Layout.v
theories/Props_Logging.v
theories/Props_LossPlot.v
theories/Props_Losses.v
theories/Props_Materials.v
theories/Props_Modes.v
theories/Props_Networks.v
theories/Props_Orders.v
theories/Props_Output.v
theories/Props_Pipeline.v
theories/Props_Plane.v
theories/Props_Plots.v
theories/Props_Print.v
theories/Props_Queries.v
theories/Props_Register.v
theories/Props_Resolution.v
theories/Props_Reverse.v
theories/Props_Rounding.v
theories/Props_Rows.v
theories/Props_Runs.v
theories/Props_Scale.v
theories/Props_Slab.v
theories/Props_Soft.v
theories/Props_Stack.v
theories/Props_Start.v
theories/Props_Steady.v
theories/Props_Symmetry.v
theories/Props_TMM.v
theories/Props_TMM2.v
theories/Props_TMM3.v
theories/Props_TRCWA.v
theories/Props_Tables.v
theories/Props_Torch.v
theories/Props_Twin.v
theories/Props_Units.v
theories/Props_Visualize.v
theories/Props_Wave.v
theories/Props_Waveforms.v
theories/PyVal.v
theories/Spec_Absorber.v
theories/Spec_Agree.v
theories/Spec_Backend.v
theories/Spec_Batch.v
theories/Spec_Border.v
theories/Spec_Causal.v
theories/Spec_Coeffs.v
theories/Spec_Config.v
theories/Spec_Cut.v
theories/Spec_Detection.v
theories/Spec_Dispatch.v
theories/Spec_Emission.v
theories/Spec_EpsGrid.v
theories/Spec_FDTD.v
theories/Spec_Film.v
theories/Spec_Fourier.v
theories/Spec_Harmonic.v
theories/Spec_Lattice.v
theories/Spec_Layout.v
theories/Spec_Lists.v
theories/Spec_Logging.v
theories/Spec_Losses.v
theories/Spec_Materials.v
theories/Spec_Members.v
theories/Spec_Modes.v
theories/Spec_Networks.v
theories/Spec_Networks2.v
theories/Spec_Orders.v
theories/Spec_Output.v
theories/Spec_Passive.v
theories/Spec_Pipeline.v
theories/Spec_Plane.v
theories/Spec_Plots.v
theories/Spec_Print.v
theories/Spec_Queries.v
theories/Spec_Register.v
theories/Spec_Resolution.v
theories/Spec_Reverse.v
theories/Spec_Rounding.v
theories/Spec_Rows.v
theories/Spec_Runs.v
theories/Spec_Scale.v
theories/Spec_Slab.v
theories/Spec_Soft.v
theories/Spec_Stack.v
theories/Spec_Start.v
theories/Spec_Steady.v
theories/Spec_Symmetry.v
theories/Spec_TMM.v
theories/Spec_TMM2.v
theories/Spec_TMM3.v
theories/Spec_TRCWA.v
theories/Spec_Tables.v
theories/Spec_Torch.v
theories/Spec_Training.v
theories/Spec_Twin.v
theories/Spec_Visualize.v
theories/Spec_Wave.v
theories/Spec_Waveforms.v
