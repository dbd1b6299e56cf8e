-Q theories Verif
theories/Outcome.v
theories/CInt.v
theories/RatioMaths.v
theories/Pow.v
theories/Root.v
theories/Ratio.v
theories/SpecRatio.v
theories/RatioMathsProofs.v
theories/QTen.v
theories/RatioProofs.v
theories/RatioProofs2.v
theories/RatioPowProofs.v
theories/Props_Ratio.v
theories/FixedString.v
theories/TypeList.v
theories/Unit.v
theories/Downcast.v
theories/Dim.v
theories/DimOp.v
theories/Equivalent.v
theories/SpecDim.v
theories/SpecUnit.v
theories/TextTools.v
theories/DerivedSymbol.v
theories/DerivedUnit.v
theories/UnitDecl.v
theories/Reference.v
theories/Rep.v
theories/IntProofs.v
theories/QuantityCast.v
theories/CommonQuantity.v
theories/Quantity.v
theories/SpecQuantity.v
theories/TypeListProofs.v
theories/StringProofs.v
theories/DimProofs.v
theories/DimOpProofs.v
theories/DimOpProofs2.v
theories/MagnitudeProofs.v
theories/UnitProofs.v
theories/EquivProofs.v
theories/CastProofs.v
theories/QuantityProofs.v
theories/QuantityProofs2.v
theories/QuantityProofs3.v
theories/QuantityProofs4.v
theories/QuantityProofs5.v
theories/DimOpProofs3.v
theories/Samples.v
theories/Point.v
theories/Kind.v
theories/PointKind.v
theories/SpecPoint.v
theories/PointProofs.v
theories/KindProofs.v
theories/Props_Dim.v
theories/Props_Unit.v
theories/Props_Quantity.v
theories/Props_Quantity2.v
theories/Props_Point.v
theories/RootFloat.v
theories/SpecReal.v
theories/FloatProofs.v
theories/FloatCastProofs.v
theories/FloatRootProofs.v
theories/Props_Float.v
theories/Math.v
theories/MathProofs.v
theories/FloatMathProofs.v
theories/Props_Math.v
theories/Chrono.v
theories/ChronoProofs.v
theories/Props_Chrono.v
theories/FloatAddProofs.v
theories/Random.v
theories/Props_Random.v
theories/SpecText.v
theories/TextProofs.v
theories/SymbolProofs.v
theories/Props_Text.v
theories/UnitText.v
theories/SpecUnitText.v
theories/UnitTextProofs.v
theories/QuantityIo.v
theories/Props_UnitText.v
theories/Format.v
theories/SpecFormat.v
theories/FormatProofs.v
theories/FormatProofs2.v
theories/FormatProofs3.v
theories/Props_Format.v
theories/System.v
theories/Catalogue.v
theories/SpecCatalogue.v
theories/SystemProofs.v
theories/IsqProofs.v
theories/CatalogueProofs.v
theories/CatalogueCastProofs.v
theories/Props_Catalogue.v
theories/Props_More.v
theories/Props_Point2.v
theories/Expr.v
theories/SpecExpr.v
theories/ExprProofs.v
theories/ExprProofs2.v
theories/ExprProofs3.v
theories/Props_Expr.v
theories/ConstexprMath.v
theories/ConstexprProofs.v
theories/ConstexprProofs2.v
theories/ConstexprProofs3.v
theories/ConstexprProofs4.v
theories/ConstexprProofs5.v
theories/ConstexprProofs6.v
theories/ConstexprRootProofs.v
theories/Props_Constexpr.v
theories/Names.v
theories/SpecNames.v
theories/NamesProofs.v
theories/Props_Names.v
theories/SpecSystems.v
theories/WorldProofs.v
theories/SystemsProofs.v
theories/Props_Systems.v
theories/Constants.v
theories/SpecConstants.v
theories/ConstantsProofs.v
theories/Props_Constants.v
theories/Concepts.v
theories/SpecConcepts.v
theories/ConceptsProofs.v
theories/Props_Concepts.v
theories/Custom.v
theories/SpecCustom.v
theories/CustomProofs.v
theories/CustomProofs2.v
theories/Props_Custom.v
theories/SpecOrder.v
theories/FloatOrderProofs.v
theories/Props_FloatOrder.v
theories/SpecSymbols.v
theories/SymbolsProofs.v
theories/Props_Symbols.v
theories/Includes.v
theories/Conform.v
theories/Conform_Systems.v
theories/Conform_Text.v
theories/Conform_Format.v
theories/ConformKinds.v
theories/Conform_Kinds.v
theories/SpecIncludes.v
theories/IncludesProofs.v
theories/IncludesProofs2.v
theories/IncludesProofs3.v
theories/WorldSameProofs.v
theories/Props_Includes.v
theories/Plain.v
theories/SpecPlain.v
theories/PlainProofs.v
theories/Props_Plain.v
theories/Construct.v
theories/SpecConstruct.v
theories/ConstructProofs.v
theories/Props_Construct.v
theories/Conform_Core.v
theories/Props_Remainder.v
theories/Affine.v
theories/SpecAffine.v
theories/AffineProofs.v
theories/Props_Affine.v
theories/Static.v
theories/SpecStatic.v
theories/StaticProofs.v
theories/Props_Static.v
theories/Program.v
theories/SpecProgram.v
theories/ProgramProofs.v
theories/SpecIdeal.v
theories/IdealProofs.v
theories/Props_Program.v
theories/SpecError.v
theories/ErrorProofs.v
theories/Props_Error.v
theories/SpecRounding.v
theories/RoundingProofs.v
theories/Props_Rounding.v
theories/EquivalentTypes.v
theories/SpecModes.v
theories/ModeProofs.v
theories/Props_Modes.v
theories/Props_ModesSI.v
theories/ModeProofs2.v
theories/KindExpr.v
theories/SpecKindExpr.v
theories/KindExprProofs.v
theories/Props_KindExpr.v
theories/SpecRange.v
theories/RangeProofs.v
theories/Props_Range.v
theories/Wrapper.v
theories/SpecWrapper.v
theories/WrapperProofs.v
theories/Props_Wrapper.v
theories/Conform_Wrapper.v
theories/SpecCancel.v
theories/CancelProofs.v
theories/Props_Cancel.v
theories/Kalman.v
theories/SpecKalman.v
theories/KalmanProofs.v
theories/KalmanReals.v
theories/KalmanFilterProofs.v
theories/KalmanMotionProofs.v
theories/Props_Kalman.v
theories/SpecProgramModes.v
theories/ProgramModeProofs.v
theories/Props_ProgramModes.v
theories/Glide.v
theories/SpecGlide.v
theories/GlideProofs.v
theories/GlideProofs2.v
theories/GlideProofs3.v
theories/Props_Glide.v
theories/StaticKind.v
theories/SpecStaticKind.v
theories/StaticKindProofs.v
theories/Props_StaticKind.v
theories/KindProgram.v
theories/SpecKindProgram.v
theories/KindProgramProofs.v
theories/KindEraseProofs.v
theories/KindStripProofs.v
theories/Props_KindProgram.v
theories/SpecNumbers.v
theories/LowerProofs.v
theories/LowerPrograms.v
theories/Props_Numbers.v
theories/SpecKindNumbers.v
theories/Props_KindNumbers.v
theories/Measure.v
theories/SpecMeasure.v
theories/MeasureProofs.v
theories/Props_Measure.v
theories/Props_Pow.v
theories/Energy.v
theories/SpecEnergy.v
theories/EnergyProofs.v
theories/Props_Energy.v
theories/Box.v
theories/SpecBox.v
theories/BoxProofs.v
theories/Props_Box.v
theories/ConversionFactor.v
theories/Props_ConversionFactor.v
theories/Capacitor.v
theories/SpecCapacitor.v
theories/CapacitorProofs.v
theories/Props_Capacitor.v
theories/AvgSpeed.v
theories/SpecAvgSpeed.v
theories/AvgSpeedProofs.v
theories/Props_AvgSpeed.v
theories/UnknownDim.v
theories/Props_UnknownDim.v
theories/Ship.v
theories/SpecShip.v
theories/Props_Ship.v
