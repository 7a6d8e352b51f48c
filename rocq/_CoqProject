-Q theories Verif
theories/GoBase.v
theories/GoFloat.v
theories/GoStr.v
theories/M_Micrometer.v
theories/M_Geom2D.v
theories/L_Float.v
theories/L_Micrometer.v
theories/S_Geom.v
theories/L_Vec.v
theories/L_Geom2D.v
theories/S_Simplify.v
theories/L_Simplify.v
theories/M_DPHeap.v
theories/L_DPHeap.v
theories/S_Text.v
theories/L_Str.v
theories/L_Data.v
theories/P_Data.v
theories/M_Option.v
theories/S_Option.v
theories/L_Option.v
theories/P_Option.v
theories/M_Model.v
theories/S_Model.v
theories/L_Model.v
theories/L_Optimize.v
theories/L_Stl.v
theories/P_Model.v
theories/M_Slicer.v
theories/S_Slicer.v
theories/L_Slicer.v
theories/L_SliceLoop.v
theories/L_Chains.v
theories/L_Join.v
theories/L_Polygons.v
theories/L_Closed.v
theories/L_SliceAll.v
theories/P_Slicer.v
theories/M_Clip.v
theories/L_FloatInt.v
theories/S_Clip.v
theories/L_Clip.v
theories/M_FillHeap.v
theories/L_Linear.v
theories/P_Clip.v
theories/M_Builder.v
theories/S_Printer.v
theories/S_Builder.v
theories/S_Calls.v
theories/L_Printer.v
theories/L_Builder.v
theories/L_Calls.v
theories/L_Extrude.v
theories/P_Builder.v
theories/M_Layer.v
theories/M_Render.v
theories/S_Machine.v
theories/S_Render.v
theories/L_Render.v
theories/L_Events.v
theories/L_Settings.v
theories/L_Whole.v
theories/L_Safe.v
theories/P_Render.v
theories/M_Modifier.v
theories/S_Area.v
theories/L_Area.v
theories/S_Modifier.v
theories/L_Modifier.v
theories/L_Amount.v
theories/L_ModArea.v
theories/L_Infill.v
theories/L_Strip.v
theories/P_Modifier.v
theories/S_Support.v
theories/L_Support.v
theories/P_Support.v
theories/M_Process.v
theories/S_Process.v
theories/L_Process.v
theories/P_Process.v
theories/P_Pipeline.v
theories/L_Distance.v
theories/P_Infill.v
theories/S_Fill.v
theories/L_Fill.v
theories/L_Complete.v
theories/P_Complete.v
theories/L_LineLib.v
theories/M_Flags.v
theories/S_Flags.v
theories/L_Flags.v
theories/L_Decimal.v
theories/P_Flags.v
theories/S_Lines.v
theories/L_Lines.v
theories/P_Lines.v
theories/P_EndToEnd.v
theories/P_Travel.v
theories/S_Brim.v
theories/L_TreeLib.v
theories/P_Brim.v
theories/M_Export.v
theories/P_Export.v
theories/S_Volume.v
theories/L_Volume.v
theories/L_Filament.v
theories/P_Volume.v
theories/L_Zig.v
theories/S_Pattern.v
theories/P_Pattern.v
theories/S_Solid.v
theories/L_Ray.v
theories/L_Solid.v
theories/P_Solid.v
theories/L_Hit.v
theories/L_Sliver.v
theories/L_Exponent.v
theories/S_Same.v
theories/L_Same.v
theories/P_Same.v
theories/S_Place.v
theories/L_Place.v
theories/P_Place.v
theories/S_Local.v
theories/L_Local.v
theories/P_Local.v
theories/S_Rotate.v
theories/L_Rotate.v
theories/P_Rotate.v
theories/S_Print.v
theories/P_Print.v
theories/S_Body.v
theories/P_Body.v
theories/P_Order.v
theories/P_Open.v
theories/P_Overlap.v
theories/L_Grid.v
theories/P_Grid.v
theories/S_Nozzle.v
theories/L_Nozzle.v
theories/P_Nozzle.v
theories/P_Layer.v
theories/S_Round.v
theories/L_Round.v
theories/P_Round.v
theories/P_Total.v
theories/S_Above.v
theories/P_Above.v
theories/P_Repeat.v
theories/S_Center.v
theories/L_Center.v
theories/P_Center.v
theories/P_Feature.v
theories/P_More.v
