-Q theories Verif
theories/Base/Py.v
theories/Base/Val.v
theories/Base/PyFacts.v
theories/Model/Pvl.v
theories/Spec/Pvl.v
theories/Proofs/PvlBlocks.v
theories/Proofs/PvlText.v
theories/Model/PvlLiteral.v
theories/Proofs/PvlPointers.v
theories/Proofs/PvlLiteral.v
theories/Proofs/PvlWhole.v
theories/Proofs/PvlQuantity.v
theories/Proofs/PvlMore.v
theories/Properties/Pvl.v
theories/Model/Trim.v
theories/Spec/Trim.v
theories/Proofs/Trim.v
theories/Properties/Trim.v
theories/Properties/Meta.v
theories/Model/Meta.v
theories/Spec/Meta.v
theories/Proofs/Meta.v
theories/Model/Files.v
theories/Spec/Files.v
theories/Proofs/Files.v
theories/Properties/Files.v
theories/Model/Func.v
theories/Spec/Func.v
theories/Proofs/Func.v
theories/Properties/Func.v
theories/Model/Types.v
theories/Spec/Types.v
theories/Properties/Types.v
theories/Base/Numpy.v
theories/Model/Image.v
theories/Spec/Image.v
theories/Proofs/Image.v
theories/Properties/Image.v
theories/Model/Position.v
theories/Spec/Position.v
theories/Properties/Position.v
theories/Model/Bits.v
theories/Spec/Bits.v
theories/Properties/Bits.v
theories/Model/Ibm.v
theories/Spec/Ibm.v
theories/Properties/Ibm.v
theories/Model/Table.v
theories/Spec/Table.v
theories/Proofs/Table.v
theories/Proofs/TableLabel.v
theories/Properties/Table.v
theories/Base/Float.v
theories/Base/FloatMore.v
theories/Model/Scaling.v
theories/Spec/Scaling.v
theories/Proofs/Scaling.v
theories/Properties/Scaling.v
theories/Model/Dispatch.v
theories/Spec/Dispatch.v
theories/Properties/Dispatch.v
theories/Model/Data.v
theories/Model/Browse.v
theories/Spec/Data.v
theories/Spec/Browse.v
theories/Proofs/Data.v
theories/Proofs/Browse.v
theories/Properties/Data.v
theories/Properties/Browse.v
theories/Model/MocTables.v
theories/Model/Moc.v
theories/Spec/Moc.v
theories/Proofs/Moc.v
theories/Properties/Moc.v
theories/Model/MocTransform.v
theories/Model/Msl.v
theories/Spec/Msl.v
theories/Proofs/Msl.v
theories/Properties/Msl.v
theories/Spec/MocTransform.v
theories/Proofs/MocTransform.v
theories/Properties/MocTransform.v
theories/Model/Xml.v
theories/Model/Pds4Types.v
theories/Spec/Pds4Types.v
theories/Proofs/Pds4Types.v
theories/Properties/Pds4Types.v
theories/Model/Pds4Tables.v
theories/Spec/Pds4Tables.v
theories/Proofs/Pds4Manifest.v
theories/Proofs/Pds4Tables.v
theories/Proofs/Pds4Fixed.v
theories/Properties/Pds4Tables.v
theories/Properties/Pds4Fixed.v
theories/Spec/Xml.v
theories/Model/Pds4Values.v
theories/Spec/Pds4Values.v
theories/Proofs/Pds4Values.v
theories/Proofs/Pds4Fields.v
theories/Properties/Pds4Values.v
theories/Properties/Pds4Fields.v
theories/Model/Pds4Frame.v
theories/Spec/Pds4Frame.v
theories/Proofs/Pds4Names.v
theories/Proofs/Pds4Heads.v
theories/Proofs/Pds4Frame.v
theories/Properties/Pds4Frame.v
theories/Properties/Pds4FrameFiles.v
theories/Properties/Pds4Names.v
theories/Model/Fits.v
theories/Spec/Fits.v
theories/Proofs/Fits.v
theories/Proofs/FitsKeys.v
theories/Properties/Fits.v
theories/Properties/FitsKeys.v
theories/Model/Text.v
theories/Spec/Text.v
theories/Properties/Text.v
theories/Proofs/Xml.v
theories/Properties/Xml.v
theories/Model/Desktop.v
theories/Spec/Desktop.v
theories/Properties/Desktop.v
theories/Model/Array.v
theories/Spec/Array.v
theories/Proofs/Array.v
theories/Properties/Array.v
theories/Model/TableValues.v
theories/Spec/TableValues.v
theories/Proofs/TableValues.v
theories/Properties/TableValues.v
theories/Model/Objects.v
theories/Spec/Objects.v
theories/Proofs/Objects.v
theories/Properties/Objects.v
theories/Properties/ObjectFiles.v
theories/Model/TextTable.v
theories/Spec/TextTable.v
theories/Proofs/TextTable.v
theories/Properties/TextTable.v
theories/Model/PdsImage.v
theories/Spec/PdsImage.v
theories/Proofs/PdsImage.v
theories/Properties/PdsImage.v
theories/Spec/PdsScaled.v
theories/Proofs/PdsScaled.v
theories/Properties/PdsScaled.v
theories/Model/Histogram.v
theories/Spec/Histogram.v
theories/Properties/Histogram.v
theories/Model/Product.v
theories/Model/Checkers.v
theories/Spec/Checkers.v
theories/Proofs/Checkers.v
theories/Properties/Checkers.v
theories/Model/SpecialProduct.v
theories/Properties/SpecialProduct.v
theories/Spec/Product.v
theories/Proofs/Product.v
theories/Properties/Product.v
theories/Properties/ProductObjects.v
theories/Properties/ProductCases.v
theories/Properties/ProductText.v
theories/Properties/ProductTextCases.v
theories/Spec/Conditions.v
theories/Properties/Conditions.v
theories/Model/Pds4Product.v
theories/Spec/Pds4Product.v
theories/Proofs/Pds4Product.v
theories/Properties/Pds4Product.v
theories/Properties/Pds4ProductCase.v
theories/Model/ImageMeta.v
theories/Spec/ImageMeta.v
theories/Proofs/ImageMeta.v
theories/Properties/ImageMeta.v
theories/Model/ArrayRecords.v
theories/Spec/ArrayRecords.v
theories/Proofs/ArrayRecords.v
theories/Properties/ArrayRecords.v
theories/Model/Sampled.v
theories/Spec/Sampled.v
theories/Proofs/Sampled.v
theories/Properties/Sampled.v
theories/Model/Blocks.v
theories/Spec/Blocks.v
theories/Proofs/Blocks.v
theories/Properties/Blocks.v
theories/Model/SpecialPosition.v
theories/Spec/SpecialPosition.v
theories/Properties/SpecialPosition.v
