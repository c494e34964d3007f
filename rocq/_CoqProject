-Q theories Verif
theories/Lib.v
theories/LibFacts.v
theories/Migrate_Model.v
theories/Migrate_Spec.v
theories/Threads_Proofs.v
theories/Migrate_Proofs.v
theories/Migrate_Props.v
theories/PySlice.v
theories/PySliceFacts.v
theories/StaLta_Model.v
theories/StaLta_Spec.v
theories/StaLta_Proofs.v
theories/StaLta_Props.v
theories/Timeline_Model.v
theories/Timeline_Spec.v
theories/Timeline_Proofs.v
theories/Float_Model.v
theories/Timeline_Props.v
theories/ScanMseed_Model.v
theories/ScanMseed_Spec.v
theories/ScanMseed_Proofs.v
theories/ScanMseed_Props.v
theories/Calendar_Model.v
theories/Calendar_Spec.v
theories/Calendar_Proofs.v
theories/Trigger_Model.v
theories/Trigger_Spec.v
theories/Trigger_Proofs.v
theories/Trigger_Props.v
theories/PyDict.v
theories/Lut_Model.v
theories/Lut_Spec.v
theories/Lut_Proofs.v
theories/Lut_Props.v
theories/Locate_Model.v
theories/Locate_Spec.v
theories/Locate_Proofs.v
theories/Locate_Props.v
theories/Picker_Model.v
theories/Picker_Spec.v
theories/Picker_Proofs.v
theories/Picker_Props.v
theories/Avail_Model.v
theories/Avail_Spec.v
theories/Avail_Proofs.v
theories/Avail_Props.v
theories/Amp_Model.v
theories/Amp_Spec.v
theories/Amp_Proofs.v
theories/Amp_Props.v
theories/Mag_Model.v
theories/Mag_Spec.v
theories/Mag_Proofs.v
theories/Mag_Props.v
theories/CreateLut_Model.v
theories/CreateLut_Spec.v
theories/CreateLut_Proofs.v
theories/CreateLut_Props.v
theories/Export_Model.v
theories/Export_Spec.v
theories/Export_Proofs.v
theories/Export_Props.v
theories/Catalogue_Model.v
theories/Catalogue_Spec.v
theories/Catalogue_Proofs.v
theories/Catalogue_Props.v
theories/GauFit_Model.v
theories/GauFit_Spec.v
theories/GauFit_Proofs.v
theories/GauSmooth_Proofs.v
theories/GauFit_Props.v
theories/Resample_Model.v
theories/Resample_Spec.v
theories/Resample_Proofs.v
theories/ResFill_Proofs.v
theories/Resample_Props.v
theories/Smooth_Model.v
theories/Smooth_Spec.v
theories/Smooth_Proofs.v
theories/Smooth_Props.v
theories/AmpMeas_Model.v
theories/AmpMeas_Spec.v
theories/AmpMeas_Proofs.v
theories/AmpMeas_Props.v
theories/Source_Spec.v
theories/Source_Proofs.v
theories/Source_Props.v
theories/Archive_Model.v
theories/Archive_Spec.v
theories/Archive_Proofs.v
theories/Archive_Props.v
theories/LutFile_Model.v
theories/LutFile_Spec.v
theories/LutFile_Proofs.v
theories/LutFile_Props.v
theories/Extent_Model.v
theories/Extent_Spec.v
theories/Extent_Proofs.v
theories/Extent_Props.v
theories/Params_Model.v
theories/Params_Spec.v
theories/Params_Proofs.v
theories/Params_Props.v
theories/Comps_Model.v
theories/Comps_Spec.v
theories/Comps_Proofs.v
theories/Comps_Props.v
theories/Amps_Model.v
theories/Amps_Spec.v
theories/Amps_Proofs.v
theories/Amps_Props.v
theories/Pipeline_Model.v
theories/Pipeline_Spec.v
theories/Pipeline_Proofs.v
theories/Pipeline_Props.v
theories/LocatePipe_Model.v
theories/LocatePipe_Spec.v
theories/LocatePipe_Proofs.v
theories/LocatePipe_Props.v
theories/Files_Model.v
theories/Files_Spec.v
theories/Files_Proofs.v
theories/Files_Props.v
theories/WoodAnderson_Model.v
theories/WoodAnderson_Spec.v
theories/WoodAnderson_Proofs.v
theories/WoodAnderson_Props.v
theories/AmpFilter_Model.v
theories/AmpFilter_Spec.v
theories/AmpFilter_Proofs.v
theories/AmpFilter_Props.v
theories/AmpPlot_Model.v
theories/AmpPlot_Spec.v
theories/AmpPlot_Proofs.v
theories/AmpPlot_Props.v
theories/Event_Model.v
theories/Event_Spec.v
theories/Event_Proofs.v
theories/Event_Props.v
theories/PickPlot_Model.v
theories/PickPlot_Spec.v
theories/PickPlot_Proofs.v
theories/PickPlot_Props.v
theories/EventPlot_Model.v
theories/EventPlot_Spec.v
theories/EventPlot_Proofs.v
theories/EventPlot_Props.v
theories/LutPlot_Model.v
theories/LutPlot_Spec.v
theories/LutPlot_Proofs.v
theories/LutPlot_Props.v
theories/TrigPlot_Model.v
theories/TrigPlot_Spec.v
theories/TrigPlot_Proofs.v
theories/TrigPlot_Props.v
theories/Merge_Model.v
theories/Merge_Spec.v
theories/Merge_Proofs.v
theories/Merge_Props.v
theories/Read_Model.v
theories/Read_Spec.v
theories/Read_Proofs.v
theories/Read_Props.v
theories/Onset_Model.v
theories/Onset_Spec.v
theories/Onset_Proofs.v
theories/Onset_Props.v
theories/Compute_Spec.v
theories/Compute_Props.v
theories/PickRun_Model.v
theories/PickRun_Spec.v
theories/PickRun_Proofs.v
theories/PickRun_Props.v
theories/Gain_Spec.v
theories/Gain_Proofs.v
theories/Gain_Props.v
theories/Shift_Spec.v
theories/Shift_Proofs.v
theories/Shift_Props.v
theories/DetectRun_Model.v
theories/DetectRun_Spec.v
theories/DetectRun_Proofs.v
theories/DetectRun_Props.v
theories/LocateRun_Model.v
theories/LocateRun_Spec.v
theories/LocateRun_Proofs.v
theories/LocateRun_Props.v
theories/StationSet_Spec.v
theories/StationSet_Proofs.v
theories/StationSet_Props.v
theories/Strict_Spec.v
theories/Strict_Proofs.v
theories/Strict_Props.v
theories/Window_Spec.v
theories/Window_Proofs.v
theories/Window_Props.v
theories/Agree_Spec.v
theories/Agree_Proofs.v
theories/Agree_Props.v
theories/Formula_Spec.v
theories/Formula_Proofs.v
theories/Formula_Props.v
theories/Peak_Proofs.v
theories/Peak_Props.v
theories/Backend_Spec.v
theories/Backend_Proofs.v
theories/Backend_Props.v
theories/Near_Spec.v
theories/Near_Proofs.v
theories/Near_Props.v
theories/Hypo_Spec.v
theories/Hypo_Proofs.v
theories/Hypo_Props.v
theories/Robust_Spec.v
theories/Robust_Proofs.v
theories/Robust_Props.v
theories/Units_Spec.v
theories/Units_Proofs.v
theories/Units_Props.v
theories/Chain_Model.v
theories/Chain_Spec.v
theories/Chain_Proofs.v
theories/Poles_Proofs.v
theories/Chain_Props.v
theories/Phase_Spec.v
theories/Phase_Proofs.v
theories/Phase_Props.v
theories/Args_Model.v
theories/Args_Props.v
theories/Decim_Model.v
theories/Decim_Spec.v
theories/Decim_Proofs.v
theories/Decim_Props.v
theories/Room_Spec.v
theories/Room_Proofs.v
theories/Room_Props.v
theories/Fast_Spec.v
theories/Fast_Proofs.v
theories/Fast_Props.v
theories/FastHypo_Props.v
