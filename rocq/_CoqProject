-Q theories Verif
theories/Base.v
theories/Data_Friction.v
theories/Data_Piping.v
theories/Data_Pump.v
theories/Data_Safety.v
theories/Interval.v
theories/Model_Arrays.v
theories/Model_Atmosphere.v
theories/Model_Compressible.v
theories/Model_Core.v
theories/Model_Differences.v
theories/Model_DoubleDouble.v
theories/Model_Drag.v
theories/Model_Equipment.v
theories/Model_Fittings.v
theories/Model_Float.v
theories/Model_FlowMeter.v
theories/Model_Friction.v
theories/Model_Geometry.v
theories/Model_Isothermal.v
theories/Model_JetPump.v
theories/Model_Numerics.v
theories/Model_OpenFlow.v
theories/Model_PSD.v
theories/Model_PackedBed.v
theories/Model_PackedTower.v
theories/Model_Poly.v
theories/Model_Real.v
theories/Model_Relief.v
theories/Model_Roots.v
theories/Model_Roughness.v
theories/Model_Sizing.v
theories/Model_Solvers.v
theories/Model_Splines.v
theories/Model_Systems.v
theories/Model_Tables.v
theories/Model_TwoPhase.v
theories/Model_Valve.v
theories/Model_Voidage.v
theories/Proofs_Arrays.v
theories/Proofs_Arrays2.v
theories/Proofs_Arrays3.v
theories/Proofs_Arrays4.v
theories/Proofs_Arrays5.v
theories/Proofs_Atmosphere.v
theories/Proofs_Cheb.v
theories/Proofs_Clamond.v
theories/Proofs_Colebrook.v
theories/Proofs_Differences.v
theories/Proofs_DoubleDouble.v
theories/Proofs_Drag.v
theories/Proofs_Friction.v
theories/Proofs_Friction2.v
theories/Proofs_FrictionMono.v
theories/Proofs_GK.v
theories/Proofs_Geometry.v
theories/Proofs_Geometry2.v
theories/Proofs_Geometry3.v
theories/Proofs_Isothermal.v
theories/Proofs_LU.v
theories/Proofs_Ln.v
theories/Proofs_Misc.v
theories/Proofs_Misc2.v
theories/Proofs_Misc3.v
theories/Proofs_Misc4.v
theories/Proofs_Numerics.v
theories/Proofs_Opt.v
theories/Proofs_PSD.v
theories/Proofs_Poly.v
theories/Proofs_Poly2.v
theories/Proofs_Poly3.v
theories/Proofs_Pump.v
theories/Proofs_Real.v
theories/Proofs_Roots.v
theories/Proofs_Seq.v
theories/Proofs_Sizing.v
theories/Proofs_Solvers.v
theories/Proofs_Solvers2.v
theories/Proofs_Solvers3.v
theories/Proofs_Splines.v
theories/Proofs_Systems.v
theories/Proofs_Tables.v
theories/Proofs_Tables2.v
theories/Proofs_Tables3.v
theories/Proofs_TwoPhase.v
theories/Proofs_TwoPhase2.v
theories/Properties_Arrays.v
theories/Properties_Atmosphere.v
theories/Properties_Compressible.v
theories/Properties_Core.v
theories/Properties_Curved.v
theories/Properties_Differences.v
theories/Properties_DoubleDouble.v
theories/Properties_Drag.v
theories/Properties_Drag2.v
theories/Properties_Filters.v
theories/Properties_Fittings.v
theories/Properties_Fittings2.v
theories/Properties_Fittings3.v
theories/Properties_FlowMeter.v
theories/Properties_FlowMeter2.v
theories/Properties_FlowMeter3.v
theories/Properties_Friction.v
theories/Properties_Friction2.v
theories/Properties_Geometry.v
theories/Properties_Geometry2.v
theories/Properties_Geometry3.v
theories/Properties_Isothermal.v
theories/Properties_JetPump.v
theories/Properties_Mixing.v
theories/Properties_Numerics.v
theories/Properties_OpenFlow.v
theories/Properties_PSD.v
theories/Properties_PSD2.v
theories/Properties_PackedBed.v
theories/Properties_PackedTower.v
theories/Properties_Pipeline.v
theories/Properties_Pipeline2.v
theories/Properties_Piping.v
theories/Properties_Poly.v
theories/Properties_Pump.v
theories/Properties_Relief.v
theories/Properties_Relief2.v
theories/Properties_Relief3.v
theories/Properties_Roots.v
theories/Properties_Roughness.v
theories/Properties_Safety.v
theories/Properties_Saltation.v
theories/Properties_Separator.v
theories/Properties_Sizing.v
theories/Properties_Sizing2.v
theories/Properties_Solvers.v
theories/Properties_Splines.v
theories/Properties_Systems.v
theories/Properties_Systems2.v
theories/Model_Homotopy.v
theories/Properties_Homotopy.v
theories/Model_PolySign.v
theories/Properties_PolySign.v
theories/Model_Tori.v
theories/Properties_Tori.v
theories/Model_OneSided.v
theories/Properties_OneSided.v
theories/Model_PolyOverX.v
theories/Properties_PolyOverX.v
theories/Model_TankArea.v
theories/Properties_TankArea.v
theories/Model_Climate.v
theories/Properties_Climate.v
theories/Properties_Stations.v
theories/Properties_DoubleDouble2.v
theories/Model_AssertClose.v
theories/Properties_AssertClose.v
theories/Model_ComplexInverse.v
theories/Properties_ComplexInverse.v
theories/Properties_TwoPhase.v
theories/Properties_TwoPhase2.v
theories/Properties_Vacuum.v
theories/Properties_Valve.v
theories/Properties_Voidage.v
theories/Properties_Voidage2.v
theories/Spec_Geometry.v
theories/Spec_Mat.v
theories/Spec_Poly.v
theories/Spec_Solvers.v
theories/Spec_Systems.v
theories/Spec_Tables.v
theories/Sums.v
theories/Model_Small.v
theories/Properties_Plates.v
theories/Properties_Small.v
theories/Model_Exchanger.v
theories/Properties_Exchanger.v
theories/Model_Tank.v
theories/Properties_Tank.v
theories/Model_TankSection.v
theories/Properties_TankSection.v
