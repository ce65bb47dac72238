-Q theories Verif
theories/Arw.v
theories/Base.v
theories/ByteStream.v
theories/Bytes.v
theories/Camera.v
theories/CameraData.v
theories/Cfa.v
theories/Ciff.v
theories/Clients.v
theories/Colors.v
theories/Cr2.v
theories/Dec_Crw.v
theories/Dec_Header.v
theories/Dec_Ljpeg.v
theories/Dec_Nef.v
theories/Dec_Pred.v
theories/Dec_Simple.v
theories/Decoder.v
theories/Demosaic.v
theories/Dispatch.v
theories/F32.v
theories/Gofloat.v
theories/Huffman.v
theories/Image.v
theories/Ljpeg.v
theories/Lookup.v
theories/Mos.v
theories/Num.v
theories/P_Always.v
theories/P_Base.v
theories/P_Bits.v
theories/P_Black.v
theories/P_Black2.v
theories/P_Camera.v
theories/P_Camera2.v
theories/P_Camera3.v
theories/P_CameraData.v
theories/P_CameraData2.v
theories/P_Canon.v
theories/P_Canon2.v
theories/P_Canon3.v
theories/P_Cfa.v
theories/P_Cfa2.v
theories/P_Color1.v
theories/P_Color2.v
theories/P_Color3.v
theories/P_Crw1.v
theories/P_Crw2.v
theories/P_Crw3.v
theories/P_Crw4.v
theories/P_Cut1.v
theories/P_Dcr1.v
theories/P_Dcr2.v
theories/P_Demosaic.v
theories/P_Demosaic2.v
theories/P_Demosaic3.v
theories/P_Dispatch.v
theories/P_Dng1.v
theories/P_Dng2.v
theories/P_Dng3.v
theories/P_Dng4.v
theories/P_Ends1.v
theories/P_Ends2.v
theories/P_Ends3.v
theories/P_Ends4.v
theories/P_Ends5.v
theories/P_Ends6.v
theories/P_F32.v
theories/P_File1.v
theories/P_File2.v
theories/P_File3.v
theories/P_File4.v
theories/P_File5.v
theories/P_Gamma.v
theories/P_Gofloat.v
theories/P_Gofloat2.v
theories/P_Header1.v
theories/P_Header2.v
theories/P_Header3.v
theories/P_Huff1.v
theories/P_Huff2.v
theories/P_Huff3.v
theories/P_Huff4.v
theories/P_Huff5.v
theories/P_Huff6.v
theories/P_Huff7.v
theories/P_Known.v
theories/P_Lab.v
theories/P_Level.v
theories/P_Ljpeg1.v
theories/P_Ljpeg10.v
theories/P_Ljpeg11.v
theories/P_Ljpeg12.v
theories/P_Ljpeg13.v
theories/P_Ljpeg2.v
theories/P_Ljpeg3.v
theories/P_Ljpeg4.v
theories/P_Ljpeg5.v
theories/P_Ljpeg6.v
theories/P_Ljpeg7.v
theories/P_Ljpeg8.v
theories/P_Ljpeg9.v
theories/P_Lookup.v
theories/P_Matrix.v
theories/P_Meta1.v
theories/P_Meta2.v
theories/P_Meta3.v
theories/P_Meta4.v
theories/P_Missing1.v
theories/P_Missing2.v
theories/P_Naked1.v
theories/P_Naked2.v
theories/P_Nikon2.v
theories/P_Orf1.v
theories/P_Orf2.v
theories/P_Orf3.v
theories/P_Orient.v
theories/P_Orient2.v
theories/P_Packed.v
theories/P_Packed2.v
theories/P_Packed3.v
theories/P_Packed4.v
theories/P_Packed5.v
theories/P_Pana1.v
theories/P_Pana2.v
theories/P_Pana3.v
theories/P_PhaseFile1.v
theories/P_PhaseFile2.v
theories/P_Pred1.v
theories/P_Pred10.v
theories/P_Pred2.v
theories/P_Pred3.v
theories/P_Pred4.v
theories/P_Pred5.v
theories/P_Pred6.v
theories/P_Pred7.v
theories/P_Pred8.v
theories/P_Pred9.v
theories/P_Pumps.v
theories/P_Reduce.v
theories/P_Reduce2.v
theories/P_Scale.v
theories/P_Scale2.v
theories/P_Sensor1.v
theories/P_Sensor2.v
theories/P_Sensor3.v
theories/P_Sensor4.v
theories/P_Sensor6.v
theories/P_Shape1.v
theories/P_Shape2.v
theories/P_Shape3.v
theories/P_Shape4.v
theories/P_Shape5.v
theories/P_Shape6.v
theories/P_Shape7.v
theories/P_Sony1.v
theories/P_Sony2.v
theories/P_Sony3.v
theories/P_Sony4.v
theories/P_SonyFile1.v
theories/P_SonyFile2.v
theories/P_Spline.v
theories/P_Spline2.v
theories/P_Srgb1.v
theories/P_Srgb2.v
theories/P_Srw1.v
theories/P_Srw1b.v
theories/P_Srw3.v
theories/P_Srw3b.v
theories/P_Threads.v
theories/P_Tiff1.v
theories/P_Tiff2.v
theories/P_Tiff3.v
theories/P_Tiff4.v
theories/P_Tiff5.v
theories/P_Tiff6.v
theories/P_Tree1.v
theories/P_Tree10.v
theories/P_Tree11.v
theories/P_Tree12.v
theories/P_Tree13.v
theories/P_Tree14.v
theories/P_Tree15.v
theories/P_Tree2.v
theories/P_Tree3.v
theories/P_Tree4.v
theories/P_Tree5.v
theories/P_Tree6.v
theories/P_Tree7.v
theories/P_Tree8.v
theories/P_Tree9.v
theories/P_White.v
theories/P_Zip.v
theories/Packed.v
theories/Pipeline.v
theories/Props_Bits.v
theories/Props_Camera.v
theories/Props_Canon.v
theories/Props_Cfa.v
theories/Props_Colors.v
theories/Props_Cut.v
theories/Props_Dispatch.v
theories/Props_Dng.v
theories/Props_Ends.v
theories/Props_File.v
theories/Props_Fill.v
theories/Props_Gamma.v
theories/Props_Header.v
theories/Props_Huffman.v
theories/Props_Known.v
theories/Props_Level.v
theories/Props_Ljpeg.v
theories/Props_Ljpeg2.v
theories/Props_Lookup.v
theories/Props_Meta.v
theories/Props_Missing.v
theories/Props_Naked.v
theories/Props_Orient.v
theories/Props_Packed.v
theories/Props_PhaseFile.v
theories/Props_Pred.v
theories/Props_Pred2.v
theories/Props_Pred3.v
theories/Props_Pred4.v
theories/Props_Pred5.v
theories/Props_Rgb.v
theories/Props_Sensor.v
theories/Props_Shape.v
theories/Props_Sony.v
theories/Props_SonyFile.v
theories/Props_Threads.v
theories/Props_Tiff.v
theories/Props_Tree.v
theories/Props_TreeCanon.v
theories/Props_TreeDng.v
theories/Props_TreeMore.v
theories/Pumps.v
theories/Raf.v
theories/Spec_Bits.v
theories/Spec_Camera.v
theories/Spec_CameraData.v
theories/Spec_Canon.v
theories/Spec_Cfa.v
theories/Spec_Crw.v
theories/Spec_Curve.v
theories/Spec_Cut.v
theories/Spec_Dcr.v
theories/Spec_Dispatch.v
theories/Spec_Dng.v
theories/Spec_Ends.v
theories/Spec_File.v
theories/Spec_Gamma.v
theories/Spec_Header.v
theories/Spec_Huffman.v
theories/Spec_Image.v
theories/Spec_Known.v
theories/Spec_Level.v
theories/Spec_Ljpeg.v
theories/Spec_Meta.v
theories/Spec_Missing.v
theories/Spec_Naked.v
theories/Spec_Nikon.v
theories/Spec_Orf.v
theories/Spec_Orient.v
theories/Spec_Packed.v
theories/Spec_Pana.v
theories/Spec_Phase.v
theories/Spec_PhaseFile.v
theories/Spec_Pred.v
theories/Spec_Pump.v
theories/Spec_Real.v
theories/Spec_Rgb.v
theories/Spec_Sensor.v
theories/Spec_Shape.v
theories/Spec_Sony.v
theories/Spec_SonyFile.v
theories/Spec_Spline.v
theories/Spec_Srw1.v
theories/Spec_Srw3.v
theories/Spec_Stream.v
theories/Spec_Threads.v
theories/Spec_Tiff.v
theories/Spec_Tree.v
theories/Spec_TreeCanon.v
theories/Spec_TreeDng.v
theories/Spec_TreeMore.v
theories/Threads.v
theories/Tiff.v
theories/Transform.v
