*.aux
*.glob
*.vo
*.vok
*.vos
.lia.cache
.nia.cache
__pycache__
rocq/.Makefile.d
rocq/Makefile
rocq/Makefile.conf
