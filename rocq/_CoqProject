-Q theories Verif
theories/L_Almanac.v
theories/L_Apart.v
theories/L_Base.v
theories/L_BaseQC.v
theories/L_BaseQC2.v
theories/L_BaseQC3.v
theories/L_BaseQC4.v
theories/L_Bayes.v
theories/L_Buddy.v
theories/L_Buddy2.v
theories/L_Buddy3.v
theories/L_Buddy4.v
theories/L_Buddy5.v
theories/L_BuddyR.v
theories/L_Calendar.v
theories/L_Calendar2.v
theories/L_Checks.v
theories/L_Chunks.v
theories/L_Chunks2.v
theories/L_Chunks3.v
theories/L_Chunks4.v
theories/L_Clim.v
theories/L_Clim2.v
theories/L_ClimFile.v
theories/L_ClimRep.v
theories/L_Csv.v
theories/L_Cut.v
theories/L_Disk.v
theories/L_Drifter.v
theories/L_Drifter2.v
theories/L_Drifter3.v
theories/L_Files.v
theories/L_Fixed.v
theories/L_Float.v
theories/L_Float10.v
theories/L_Float11.v
theories/L_Float12.v
theories/L_Float13.v
theories/L_Float14.v
theories/L_Float15.v
theories/L_Float16.v
theories/L_Float2.v
theories/L_Float3.v
theories/L_Float4.v
theories/L_Float5.v
theories/L_Float6.v
theories/L_Float7.v
theories/L_Float8.v
theories/L_Float9.v
theories/L_Grid.v
theories/L_Grid2.v
theories/L_Hum.v
theories/L_Hum2.v
theories/L_Hum3.v
theories/L_Imma.v
theories/L_Imma2.v
theories/L_Imma3.v
theories/L_Jobs.v
theories/L_Jobs2.v
theories/L_Jobs3.v
theories/L_Main.v
theories/L_Main2.v
theories/L_Main3.v
theories/L_Main4.v
theories/L_Main5.v
theories/L_Main6.v
theories/L_Main7.v
theories/L_Mds.v
theories/L_Print.v
theories/L_Queue.v
theories/L_Readers.v
theories/L_Reading.v
theories/L_Reading2.v
theories/L_Reading3.v
theories/L_Real.v
theories/L_Report.v
theories/L_Report2.v
theories/L_Report3.v
theories/L_Sphere.v
theories/L_Stats.v
theories/L_Stats2.v
theories/L_Sun.v
theories/L_SunR.v
theories/L_SunT.v
theories/L_Sunangle.v
theories/L_Tail.v
theories/L_Tail2.v
theories/L_Tail3.v
theories/L_Tail4.v
theories/L_Total.v
theories/L_Total2.v
theories/L_Total3.v
theories/L_Total4.v
theories/L_Total5.v
theories/L_Total6.v
theories/L_Total7.v
theories/L_Track.v
theories/L_Track2.v
theories/L_Track3.v
theories/L_Track4.v
theories/L_Track5.v
theories/L_Track6.v
theories/L_Tracking.v
theories/L_Tracking2.v
theories/L_Tracking3.v
theories/L_Tracking4.v
theories/L_Trig.v
theories/L_Variants.v
theories/L_Variants2.v
theories/L_Voyage.v
theories/L_Voyage2.v
theories/L_Voyage3.v
theories/L_Voyage4.v
theories/L_Voyage5.v
theories/L_Voyage6.v
theories/M_Base.v
theories/M_BaseQC.v
theories/M_Bayes.v
theories/M_Buddy.v
theories/M_BuddyR.v
theories/M_Calendar.v
theories/M_Checks.v
theories/M_Chunks.v
theories/M_ClimFile.v
theories/M_ClimRep.v
theories/M_Disk.v
theories/M_Drifter.v
theories/M_Files.v
theories/M_Fixed.v
theories/M_Float.v
theories/M_Float2.v
theories/M_Float3.v
theories/M_Float4.v
theories/M_Float5.v
theories/M_Float6.v
theories/M_Float7.v
theories/M_Float8.v
theories/M_Float9.v
theories/M_Grid.v
theories/M_Hum.v
theories/M_Imma.v
theories/M_ImmaTables.v
theories/M_Jobs.v
theories/M_Main.v
theories/M_Print.v
theories/M_Queue.v
theories/M_Readers.v
theories/M_Real.v
theories/M_Report.v
theories/M_Sphere.v
theories/M_Stats.v
theories/M_Sun.v
theories/M_SunR.v
theories/M_Sunangle.v
theories/M_Track.v
theories/M_Tracking.v
theories/M_Variants.v
theories/M_Voyage.v
theories/M_VoyageAcc.v
theories/P_Almanac.v
theories/P_Apart.v
theories/P_BaseQC.v
theories/P_Bayes.v
theories/P_Buddy.v
theories/P_Calendar.v
theories/P_Checks.v
theories/P_Chunks.v
theories/P_ClimFile.v
theories/P_ClimRep.v
theories/P_Csv.v
theories/P_Disk.v
theories/P_Drifter.v
theories/P_Files.v
theories/P_Fixed.v
theories/P_Float.v
theories/P_Float10.v
theories/P_Float11.v
theories/P_Float2.v
theories/P_Float3.v
theories/P_Float4.v
theories/P_Float5.v
theories/P_Float6.v
theories/P_Float7.v
theories/P_Float8.v
theories/P_Float9.v
theories/P_Grid.v
theories/P_Hum.v
theories/P_Imma.v
theories/P_ImmaLayout.v
theories/P_Jobs.v
theories/P_Main.v
theories/P_Main2.v
theories/P_Print.v
theories/P_Queue.v
theories/P_Readers.v
theories/P_Reading.v
theories/P_Report.v
theories/P_Sphere.v
theories/P_Stats.v
theories/P_Sun.v
theories/P_Sunangle.v
theories/P_Tail.v
theories/P_Total.v
theories/P_Total2.v
theories/P_Track.v
theories/P_Tracking.v
theories/P_Variants.v
theories/P_Voyage.v
theories/P_VoyageAcc.v
theories/S_Almanac.v
theories/S_Apart.v
theories/S_BaseQC.v
theories/S_Bayes.v
theories/S_Buddy.v
theories/S_Calendar.v
theories/S_Checks.v
theories/S_Chunks.v
theories/S_Clim.v
theories/S_ClimFile.v
theories/S_Csv.v
theories/S_Disk.v
theories/S_Drifter.v
theories/S_Exceed.v
theories/S_Files.v
theories/S_Fixed.v
theories/S_Float.v
theories/S_Float2.v
theories/S_Float3.v
theories/S_Grid.v
theories/S_Hum.v
theories/S_Imma.v
theories/S_ImmaLayout.v
theories/S_Jobs.v
theories/S_Main.v
theories/S_Main2.v
theories/S_Print.v
theories/S_Queue.v
theories/S_Readers.v
theories/S_Reading.v
theories/S_Report.v
theories/S_Sphere.v
theories/S_Stats.v
theories/S_Sun.v
theories/S_SunR.v
theories/S_Sunangle.v
theories/S_Tail.v
theories/S_Tail2.v
theories/S_Total.v
theories/S_Total2.v
theories/S_Track.v
theories/S_Tracking.v
theories/S_Trim.v
theories/S_Variants.v
theories/S_Voyage.v
theories/S_VoyageAcc.v
theories/T_Background.v
theories/T_Check.v
theories/T_Climatology.v
theories/T_Extended.v
theories/T_Num.v
theories/T_Qc.v
theories/T_TrackCheck.v
theories/T_Trackqc.v
theories/T_YMCounter.v
