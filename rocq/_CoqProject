-Q theories Verif
theories/Py.v
theories/PyFacts.v
theories/PyStr.v
theories/PyStrFacts.v
theories/RList.v
theories/M_Config.v
theories/S_Config.v
theories/L_Config.v
theories/T_Config.v
theories/M_Component.v
theories/S_Component.v
theories/L_Component.v
theories/L_Load.v
theories/L_Replace.v
theories/L_Update.v
theories/T_Component.v
theories/M_Tensor.v
theories/S_Tensor.v
theories/L_Tensor.v
theories/T_Tensor.v
theories/M_Batch.v
theories/S_Batch.v
theories/L_Batch.v
theories/L_Filter.v
theories/L_Batching.v
theories/T_Batch.v
theories/M_Pipeline.v
theories/S_Pipeline.v
theories/L_Pipeline.v
theories/L_Hang.v
theories/T_Pipeline.v
theories/M_Trafo.v
theories/S_Trafo.v
theories/L_Trafo.v
theories/T_Trafo.v
theories/M_Checkpoint.v
theories/S_Checkpoint.v
theories/L_Checkpoint.v
theories/L_Crash.v
theories/T_Checkpoint.v
theories/M_Train.v
theories/S_Train.v
theories/L_Train.v
theories/T_Train.v
theories/M_Source.v
theories/S_Source.v
theories/L_Source.v
theories/T_Source.v
theories/M_Pulse.v
theories/S_Pulse.v
theories/L_Pulse.v
theories/T_Pulse.v
theories/M_Setup.v
theories/S_Setup.v
theories/L_Setup.v
theories/T_Setup.v
theories/M_Loss.v
theories/S_Loss.v
theories/L_Loss.v
theories/T_Loss.v
theories/S_Likelihood.v
theories/T_Likelihood.v
theories/M_Sphere.v
theories/S_Sphere.v
theories/L_Sphere.v
theories/T_Sphere.v
theories/M_Opt.v
theories/S_Opt.v
theories/L_Opt.v
theories/T_Opt.v
theories/S_Simplex.v
theories/L_Simplex.v
theories/T_Simplex.v
theories/M_Tray.v
theories/S_Tray.v
theories/L_Tray.v
theories/T_Tray.v
theories/M_Reco.v
theories/S_Reco.v
theories/L_Reco.v
theories/T_Reco.v
theories/M_Basis.v
theories/S_Basis.v
theories/L_Basis.v
theories/T_Basis.v
theories/M_Gof.v
theories/S_Gof.v
theories/S_GofRun.v
theories/L_Gof.v
theories/T_Gof.v
theories/M_Seed.v
theories/S_Seed.v
theories/T_Seed.v
theories/M_Angles.v
theories/S_Angles.v
theories/L_Angles.v
theories/T_Angles.v
theories/M_Noise.v
theories/S_Noise.v
theories/L_Noise.v
theories/T_Noise.v
theories/M_Cascade.v
theories/S_Cascade.v
theories/L_Cascade.v
theories/T_Cascade.v
theories/M_Simulation.v
theories/S_Simulation.v
theories/L_Simulation.v
theories/T_Simulation.v
theories/M_TestReco.v
theories/S_TestReco.v
theories/L_TestReco.v
theories/T_TestReco.v
theories/M_Frame.v
theories/S_Frame.v
theories/L_Frame.v
theories/T_Frame.v
theories/M_Labels.v
theories/S_Labels.v
theories/L_Labels.v
theories/T_Labels.v
theories/M_Segment.v
theories/S_Segment.v
theories/L_Segment.v
theories/T_Segment.v
theories/M_Build.v
theories/S_Build.v
theories/L_Build.v
theories/T_Build.v
theories/M_Mcmc.v
theories/S_Mcmc.v
theories/L_Mcmc.v
theories/T_Mcmc.v
theories/M_Systematic.v
theories/S_Systematic.v
theories/L_Systematic.v
theories/T_Systematic.v
theories/M_Quantile.v
theories/S_Quantile.v
theories/L_Quantile.v
theories/T_Quantile.v
theories/M_Handler.v
theories/S_Handler.v
theories/L_Handler.v
theories/T_Handler.v
theories/M_Multi.v
theories/S_Multi.v
theories/L_Multi.v
theories/T_Multi.v
theories/M_Scripts.v
theories/S_Scripts.v
theories/L_Scripts.v
theories/T_Scripts.v
theories/M_Weights.v
theories/S_Weights.v
theories/L_Weights.v
theories/T_Weights.v
theories/M_Scan.v
theories/S_Scan.v
theories/L_Scan.v
theories/T_Scan.v
theories/M_DetectorData.v
theories/M_Detector.v
theories/S_Detector.v
theories/L_Detector.v
theories/T_Detector.v
theories/M_PulseConfig.v
theories/S_PulseConfig.v
theories/L_PulseConfig.v
theories/T_PulseConfig.v
theories/M_Circular.v
theories/S_Circular.v
theories/L_Circular.v
theories/T_Circular.v
theories/M_Dataset.v
theories/S_Dataset.v
theories/L_Dataset.v
theories/T_Dataset.v
theories/M_Ensemble.v
theories/S_Ensemble.v
theories/L_Ensemble.v
theories/T_Ensemble.v
theories/S_Retry.v
theories/L_Retry.v
theories/T_Retry.v
