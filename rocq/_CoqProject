-Q theories Verif
theories/Prelude.v
theories/Spec.v
theories/PreludeFacts.v
theories/M_Index.v
theories/M_Energy.v
theories/M_Corr.v
theories/M_Params.v
theories/M_Enum.v
theories/P_Index.v
theories/P_Unravel.v
theories/P_Energy.v
theories/P_Energy2.v
theories/P_Params.v
theories/P_Unique.v
theories/P_Convert.v
theories/P_Corr.v
theories/P_Corr2.v
theories/P_Enum.v
theories/P_EnumPotts.v
theories/Props_Index.v
theories/Props_Energy.v
theories/Props_Params.v
theories/Props_Corr.v
theories/Props_Enum.v
theories/M_Sampler.v
theories/P_Sampler.v
theories/P_Metro.v
theories/P_Cpp.v
theories/P_Cond.v
theories/Props_Sampler.v
theories/M_Temper.v
theories/P_Temper.v
theories/P_Coarse.v
theories/Props_Temper.v
theories/Props_Overlap.v
theories/M_Models.v
theories/P_MaxEnt.v
theories/P_Models.v
theories/Props_Models.v
theories/M_MPF.v
theories/P_MPF.v
theories/Props_MPF.v
theories/M_MCH.v
theories/P_MCH.v
theories/Props_MCH.v
theories/M_Pseudo.v
theories/P_Pseudo.v
theories/P_Pseudo2.v
theories/P_Pseudo3.v
theories/P_Pseudo4.v
theories/Props_Pseudo.v
theories/Props_Pseudo2.v
theories/Spec2.v
theories/M_MeanField.v
theories/M_Cluster.v
theories/P_MeanField.v
theories/P_MeanField2.v
theories/P_Cluster.v
theories/P_Cluster2.v
theories/P_Cluster3.v
theories/P_Cluster4.v
theories/P_Cluster5.v
theories/P_Cluster6.v
theories/P_MeanField3.v
theories/Props_MeanField.v
theories/Props_Cluster.v
theories/Props_Cluster2.v
theories/M_RMF.v
theories/P_RMF.v
theories/Props_RMF.v
theories/P_RMF2.v
theories/Props_RMF2.v
theories/M_Ising.v
theories/P_Ising.v
theories/P_Lattice.v
theories/Props_Ising.v
theories/M_Wolff.v
theories/P_Wolff.v
theories/P_Wolff2.v
theories/P_Wolff3.v
theories/Props_Wolff.v
theories/P_Comp.v
theories/Props_Comp.v
theories/M_PseudoDep.v
theories/P_PseudoDep.v
theories/Props_PseudoDep.v
theories/Spec3.v
theories/M_Heisenberg.v
theories/P_Heisenberg.v
theories/Props_Heisenberg.v
theories/M_Front.v
theories/Props_Front.v
theories/M_EqnText.v
theories/D_EqnSmall.v
theories/D_Eqn7.v
theories/D_Eqn7sym.v
theories/D_Eqn8.v
theories/D_Eqn8sym.v
theories/D_Eqn9.v
theories/D_Eqn9sym.v
theories/P_EqnText.v
theories/P_EqnText2.v
theories/P_EqnText3.v
theories/P_EqnText4.v
theories/Props_EqnText.v
theories/P_SW.v
theories/Props_SW.v
theories/M_Homog.v
theories/P_Gauss.v
theories/P_Homog.v
theories/Props_Homog.v
theories/Props_Stability.v
theories/M_Helpers.v
theories/Props_Helpers.v
theories/M_Incomplete.v
theories/Props_Incomplete.v
theories/P_Converge.v
theories/P_Converge2.v
theories/P_Converge3.v
theories/Props_Converge.v
theories/Props_Converge2.v
theories/M_Pool.v
theories/Props_Pool.v
theories/M_Float.v
theories/P_Float.v
theories/P_Float2.v
theories/Props_Float.v
theories/Props_Float2.v
theories/M_FloatEnum.v
theories/P_Float3.v
theories/P_Float4.v
theories/Props_Float3.v
theories/Props_Float4.v
theories/M_Potts3.v
theories/P_Potts3.v
theories/Props_Potts3.v
theories/M_PottsText.v
theories/P_PyText.v
theories/P_PottsText.v
theories/P_PottsText2.v
theories/P_PottsText3.v
theories/Props_PottsText.v
theories/M_EqnCut.v
theories/P_EqnCut.v
theories/Props_EqnCut.v
theories/P_CondDist.v
theories/Props_CondDist.v
theories/P_WolffConv.v
theories/Props_WolffConv.v
theories/P_Descent.v
theories/P_Stable.v
theories/P_Logistic.v
theories/Props_MCHDescent.v
theories/Props_Stable.v
theories/P_PseudoStable.v
theories/Props_Consistent.v
theories/Props_Scan.v
theories/Props_IsingCorr.v
theories/Props_Recover.v
theories/Props_PseudoNoise.v
theories/P_ExpLoss.v
theories/P_MPFStable.v
theories/Props_MPFNoise.v
theories/P_ScanConv.v
theories/Props_ScanConv.v
theories/Props_WolffChain.v
theories/P_MoveConv.v
theories/P_Streams.v
theories/P_TemperConv.v
theories/Props_TemperConv.v
theories/M_Rest.v
theories/Props_Rest.v
theories/M_Types.v
theories/Props_Types.v
theories/M_Memory.v
theories/Props_Memory.v
theories/M_PseudoSetup.v
theories/Props_PseudoSetup.v
theories/M_ConvertCall.v
theories/Props_ConvertCall.v
theories/M_Narrow.v
theories/Props_Narrow.v
theories/M_Size.v
theories/Props_Size.v
theories/M_PottsSolve.v
theories/P_PottsGauge.v
theories/Props_PottsGauge.v
theories/M_IntGuess.v
theories/Props_IntGuess.v
theories/P_PottsStable.v
theories/Props_PottsStable.v
theories/Props_PottsRecover.v
theories/P_ExpFamily.v
theories/P_PottsSolvable.v
theories/Props_PottsSolvable.v
theories/M_TemperObj.v
theories/Props_TemperObj.v
theories/M_Dispatch.v
theories/Props_Dispatch.v
