-Q theories Verif
theories/Base.v
theories/BaseLemmas.v
theories/F.v
theories/Heap.v
theories/Spec.v
theories/HeapLemmas.v
theories/CountLemmas.v
theories/PaintLemmas.v
theories/FLemmas.v
theories/FErr.v
theories/FLemmas32.v
theories/FNear.v
theories/ExUtil.v
theories/M_Geom.v
theories/P_Geom.v
theories/P_Crop.v
theories/ExGeom.v
theories/T_Geom.v
theories/T_Crop.v
theories/Spec_Color.v
theories/M_Color.v
theories/P_Color.v
theories/P_Color2.v
theories/P_Color3.v
theories/T_Color.v
theories/Spec_Trim.v
theories/M_Trim.v
theories/P_Trim.v
theories/T_Trim.v
theories/Spec_Morph.v
theories/M_Morph.v
theories/P_Morph.v
theories/T_Morph.v
theories/Spec_Draw.v
theories/M_Draw.v
theories/P_Draw.v
theories/P_Border.v
theories/P_Draw2.v
theories/T_Draw.v
theories/Spec_Hist.v
theories/M_Hist.v
theories/P_Hist.v
theories/T_Hist.v
theories/Spec_Exif.v
theories/M_Exif.v
theories/P_Exif.v
theories/T_Exif.v
theories/Spec_Cli.v
theories/M_Cli.v
theories/P_Cli.v
theories/T_Cli.v
theories/Spec_Parse.v
theories/M_Parse.v
theories/P_Parse.v
theories/T_Parse.v
theories/Spec_Watershed.v
theories/M_Watershed.v
theories/P_Watershed.v
theories/P_WatershedEx.v
theories/T_Watershed.v
theories/Spec_Peaks.v
theories/M_Peaks.v
theories/P_Peaks.v
theories/T_Peaks.v
theories/Spec_Corners.v
theories/M_Corners.v
theories/P_Corners.v
theories/T_Corners.v
theories/Spec_Resize.v
theories/M_Resize.v
theories/P_Resize.v
theories/T_Resize.v
theories/Spec_Sobel.v
theories/M_Sobel.v
theories/P_Sobel.v
theories/T_Sobel.v
theories/Spec_Blur.v
theories/M_Blur.v
theories/P_Blur.v
theories/T_Blur.v
theories/M_Smart.v
theories/Spec_Smart.v
theories/Spec_Otsu.v
theories/P_Smart.v
theories/T_Smart.v
theories/M_Persp.v
theories/Spec_Persp.v
theories/P_Persp.v
theories/P_Solve.v
theories/P_SolveQ.v
theories/P_PerspEx.v
theories/T_Persp.v
theories/M_Foerstner.v
theories/Spec_Foerstner.v
theories/P_Ext.v
theories/P_FoerstnerR.v
theories/P_Foerstner.v
theories/P_Straight.v
theories/T_Foerstner.v
theories/P_Flat.v
theories/M_Detect.v
theories/P_Over.v
theories/Spec_Detect.v
theories/P_DetectA.v
theories/P_DetectB.v
theories/P_Detect.v
theories/P_Black.v
theories/T_Detect.v
theories/M_Apply.v
theories/Spec_Apply.v
theories/P_ApplyA.v
theories/P_ApplyB.v
theories/P_Apply.v
theories/P_Apply2.v
theories/T_Apply.v
theories/M_Table.v
theories/Spec_Table.v
theories/M_Main.v
theories/Spec_Main.v
theories/P_Main.v
theories/Spec_Doc.v
theories/Spec_Extract.v
theories/P_Doc.v
theories/P_Extract.v
theories/T_Main.v
theories/T_Doc.v
theories/M_Otsu.v
theories/P_Otsu.v
theories/P_OtsuR.v
theories/P_Otsu2.v
theories/P_Otsu3.v
theories/T_Otsu.v
theories/Spec_Rel.v
theories/Spec_Ops.v
theories/P_Rel.v
theories/T_Rel.v
theories/P_Table.v
theories/T_Table.v
theories/M_Haskell.v
theories/Spec_Haskell.v
theories/P_Haskell.v
theories/P_Haskell2.v
theories/T_Haskell.v
theories/Spec_HsHistory.v
theories/P_HsHistory.v
theories/Spec_HsDoc.v
theories/P_HsDoc.v
theories/T_Haskell2.v
theories/M_Web.v
theories/Spec_Web.v
theories/P_Web.v
theories/P_Web2.v
theories/P_Web3.v
theories/T_Web.v
theories/Spec_Seq.v
theories/P_Seq.v
theories/T_Seq.v
theories/Spec_SeqCli.v
theories/P_SeqCli.v
theories/P_SeqCli2.v
theories/T_SeqCli.v
theories/Spec_Turn.v
theories/P_Turn.v
theories/P_Turn2.v
theories/T_Turn.v
theories/Spec_Tile.v
theories/P_Tile.v
theories/P_Tile2.v
theories/T_Tile.v
theories/P_Radius.v
theories/T_Radius.v
theories/P_TileDraw.v
theories/T_TileDraw.v
theories/P_Swap.v
theories/P_TurnDraw.v
theories/T_TurnDraw.v
theories/P_Border2.v
theories/T_Border2.v
theories/P_Tile3.v
theories/T_Tile3.v
theories/P_Nested.v
theories/T_Nested.v
theories/P_Nested2.v
theories/T_Nested2.v
